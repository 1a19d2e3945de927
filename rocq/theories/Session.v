(** session.go.  The underlying link.Session (github.com/funny/link) only
    appears through the messages handed to it. *)
From Verif Require Import Base Bits Env EntTerm EntPlat Registry Message.

(** ** Serial numbers *)

(** The value stored by a successful CompareAndSwap of nextID when the counter
    holds [id], session.go:124-132 *)
Definition next_serial (id : Z) : Z := if id =? 255 then 1 else id + 1.

(** One goroutine inside nextID, session.go:120-135: about to load, or holding
    the loaded value and about to compare-and-swap. *)
Inductive nthread := NLoad | NCas (id : Z).

(** Shared counter, the goroutines, and the results returned so far (latest first). *)
Record ncfg := NCfg { n_next : Z; n_threads : list nthread; n_out : list (nat * Z) }.

(** one goroutine moves (bookkeeping of the schedule, no code) *)
Fixpoint set_thread (l : list nthread) (i : nat) (x : nthread) : list nthread :=
  match l, i with
  | [], _ => []
  | _ :: t, O => x :: t
  | y :: t, S j => y :: set_thread t j x
  end.

(** Goroutine [i] takes its next atomic step (LoadUint32 at line 123,
    CompareAndSwapUint32 at 125/129).  After returning it calls nextID again. *)
Definition nstep (c : ncfg) (i : nat) : ncfg :=
  match nth_error (n_threads c) i with
  | None => c
  | Some NLoad => NCfg (n_next c) (set_thread (n_threads c) i (NCas (n_next c))) (n_out c)
  | Some (NCas id) =>
      if n_next c =? id
      then NCfg (next_serial id) (set_thread (n_threads c) i NLoad) ((i, next_serial id) :: n_out c)
      else NCfg (n_next c) (set_thread (n_threads c) i NLoad) (n_out c)
  end.

(** A schedule is the list of goroutines that take a step. *)
Definition nrun (c : ncfg) (sched : list nat) : ncfg := fold_left nstep sched c.

(** ** Pending requests *)

(** requestContext, session.go:14-18; [rq_tok] identifies the callback *)
Record request := Request { rq_msgid : Z; rq_serial : Z; rq_tok : Z }.

(** addRequestContext, session.go:194-205 (one critical section) *)
Fixpoint add_request (l : list request) (r : request) : list request :=
  match l with
  | [] => [r]
  | x :: t => if rq_msgid x =? rq_msgid r then r :: t else x :: add_request t r
  end.

(** [idx] of the loop at session.go:212-213 *)
Fixpoint find_serial (l : list request) (s : Z) : option nat :=
  match l with
  | [] => None
  | x :: t => if rq_serial x =? s then Some O
              else match find_serial t s with Some i => Some (S i) | None => None end
  end.

(** session.requests[idx] = ctx, session.go:200 *)
Fixpoint replace_at (l : list request) (i : nat) (r : request) : list request :=
  match l, i with
  | [], _ => []
  | _ :: t, O => r :: t
  | x :: t, S j => x :: replace_at t j r
  end.

(** takeRequestContext, session.go:208-220 (one critical section): the last
    element moves into the hole *)
Definition take_request (l : list request) (s : Z) : option request * list request :=
  match find_serial l s with
  | None => (None, l)
  | Some i =>
      let item := nth i l (Request 0 0 0) in
      let lst := nth (length l - 1) l (Request 0 0 0) in
      (Some item, firstn (length l - 1) (replace_at l i lst))
  end.

(** ** Session *)

(** Session, session.go:21-31: next, iccID, requests *)
Record session := Session { ss_next : Z; ss_icc : Z; ss_reqs : list request }.
(** newSession, session.go:34-39 *)
Definition new_session : session := Session 0 0 [].

(** The message built by Send, session.go:71-78 (no concurrent caller), and the
    session afterwards.  The entity must not be a nil interface (line 74 panics). *)
Definition session_send (s : session) (e : entity) : message * session :=
  let n := next_serial (ss_next s) in
  (Message (Header (entity_id e) 0 (ss_icc s) n None) (BEnt e),
   Session n (ss_icc s) (ss_reqs s)).

(** The entity sent by Reply, session.go:88-95 *)
Definition reply_entity (m : message) (result : Z) : entity :=
  E8001 (T8001 (h_serial (m_hdr m)) (h_id (m_hdr m)) result).

(** The switch of session.go:151-177: the type assertions panic when the body
    has another type. *)
Definition reply_serial (m : message) : res Z :=
  let id := h_id (m_hdr m) in
  if id =? 1 then match m_body m with BEnt (E0001 e) => Ok (a0001_serial e) | _ => Panic end
  else if id =? 260 then match m_body m with BEnt (E0104 e) => Ok (a0104_serial e) | _ => Panic end
  else if id =? 513 then match m_body m with BEnt (E0201 e) => Ok (a0201_serial e) | _ => Panic end
  else if id =? 770 then match m_body m with BEnt (E0302 e) => Ok (a0302_serial e) | _ => Panic end
  else if id =? 1280 then match m_body m with BEnt (E0500 e) => Ok (a0201_serial e) | _ => Panic end
  else if id =? 1792 then match m_body m with BEnt (E0700 e) => Ok (a0700_serial e) | _ => Panic end
  else if id =? 2050 then match m_body m with BEnt (E0802 e) => Ok (a0802_serial e) | _ => Panic end
  else if id =? 2053 then match m_body m with BEnt (E0805 e) => Ok (a0805_serial e) | _ => Panic end
  else Ok 0.

(** message, session.go:138-191: the session afterwards and the callback that
    is invoked with the message, if any *)
Definition session_message (s : session) (m : message) : res (session * option Z) :=
  let icc := if 0 <? h_icc (m_hdr m) then h_icc (m_hdr m) else ss_icc s in
  do serial <- reply_serial m ;
  if serial =? 0 then Ok (Session (ss_next s) icc (ss_reqs s), None)
  else match take_request (ss_reqs s) serial with
       | (Some r, l) => Ok (Session (ss_next s) icc l, Some (rq_tok r))
       | (None, l) => Ok (Session (ss_next s) icc l, None)
       end.

(** ** Concurrent use of one session *)

(** A goroutine inside Send or Request, session.go:70-112.  [cl_tok] names the
    call, [cl_cb] tells whether it is a Request with a callback; [cl_icc] is the
    terminal number loaded at line 75, [cl_serial] the result of nextID (line
    76), [cl_sent] is set once link has taken the message (line 80). *)
Record call := Call { cl_tok : Z; cl_cb : bool; cl_ent : entity; cl_icc : Z; cl_serial : option Z; cl_sent : bool }.

(** Observable effects: a serial number is drawn, a message is on the wire, a
    callback is invoked with an answer. *)
Inductive sevent := EvNext (tok n : Z) | EvSent (tok : Z) (m : message) | EvAnswer (tok : Z) (m : message).

(** The session, the running calls, the message between the two steps of the
    receiving goroutine, and the log (latest first) *)
Record scfg := SCfg { sc_sess : session; sc_calls : list call; sc_busy : option message; sc_log : list sevent }.

(** the call in progress with a given name (bookkeeping of the schedule, no code) *)
Fixpoint find_call (l : list call) (tok : Z) : option call :=
  match l with
  | [] => None
  | c :: t => if cl_tok c =? tok then Some c else find_call t tok
  end.
(** a call returns (bookkeeping of the schedule, no code) *)
Fixpoint del_call (l : list call) (tok : Z) : list call :=
  match l with
  | [] => []
  | c :: t => if cl_tok c =? tok then t else c :: del_call t tok
  end.

(** Atomic steps of goroutines, in any interleaving:
    [SStart]: a call of Send, Reply or Request begins and loads iccID (line 75);
    [SNext]: its successful compare-and-swap in nextID (lines 120-135);
    [SWire tok ok]: link takes the message, or reports an error and the call
      returns (lines 80-84, 99-102);
    [SAdd]: addRequestContext (lines 104-110);
    [SIcc m]: the receiving goroutine enters message and stores iccID (138-149);
    [STake]: it takes the request and invokes the callback (151-190).
    A step that is not enabled does nothing. *)
Inductive sop := SStart (tok : Z) (cb : bool) (e : entity) | SNext (tok : Z) | SWire (tok : Z) (ok : bool)
  | SAdd (tok : Z) | SIcc (m : message) | STake.

(** replaces the calls in progress (bookkeeping of the schedule, no code) *)
Definition set_calls (c : scfg) (l : list call) : scfg := SCfg (sc_sess c) l (sc_busy c) (sc_log c).

(** one atomic step; the citations are those of [sop] *)
Definition sstep (c : scfg) (o : sop) : res scfg :=
  let s := sc_sess c in
  match o with
  | SStart tok cb e => Ok (set_calls c (Call tok cb e (ss_icc s) None false :: sc_calls c))
  | SNext tok =>
      match find_call (sc_calls c) tok with
      | Some (Call _ cb e icc None sent) =>
          let n := next_serial (ss_next s) in
          Ok (SCfg (Session n (ss_icc s) (ss_reqs s)) (Call tok cb e icc (Some n) sent :: del_call (sc_calls c) tok)
                   (sc_busy c) (EvNext tok n :: sc_log c))
      | _ => Ok c
      end
  | SWire tok ok =>
      match find_call (sc_calls c) tok with
      | Some (Call _ cb e icc (Some n) false) =>
          let rest := del_call (sc_calls c) tok in
          if negb ok then Ok (set_calls c rest)
          else Ok (SCfg s (if cb then Call tok cb e icc (Some n) true :: rest else rest) (sc_busy c)
                        (EvSent tok (Message (Header (entity_id e) 0 icc n None) (BEnt e)) :: sc_log c))
      | _ => Ok c
      end
  | SAdd tok =>
      match find_call (sc_calls c) tok with
      | Some (Call _ _ e _ (Some n) true) =>
          Ok (SCfg (Session (ss_next s) (ss_icc s) (add_request (ss_reqs s) (Request (entity_id e) n tok)))
                   (del_call (sc_calls c) tok) (sc_busy c) (sc_log c))
      | _ => Ok c
      end
  | SIcc m =>
      match sc_busy c with
      | None => Ok (SCfg (Session (ss_next s) (if 0 <? h_icc (m_hdr m) then h_icc (m_hdr m) else ss_icc s) (ss_reqs s))
                         (sc_calls c) (Some m) (sc_log c))
      | Some _ => Ok c
      end
  | STake =>
      match sc_busy c with
      | None => Ok c
      | Some m =>
          do serial <- reply_serial m ;
          if serial =? 0 then Ok (SCfg s (sc_calls c) None (sc_log c))
          else match take_request (ss_reqs s) serial with
               | (Some r, l) => Ok (SCfg (Session (ss_next s) (ss_icc s) l) (sc_calls c) None (EvAnswer (rq_tok r) m :: sc_log c))
               | (None, l) => Ok (SCfg (Session (ss_next s) (ss_icc s) l) (sc_calls c) None (sc_log c))
               end
      end
  end.

(** a schedule of steps *)
Fixpoint srun (c : scfg) (ops : list sop) : res scfg :=
  match ops with
  | [] => Ok c
  | o :: t => do c' <- sstep c o ; srun c' t
  end.
(** newSession, session.go:34-39, with no call in progress *)
Definition sinit : scfg := SCfg new_session [] None [].
