(** The mutexes of the package, with one step per Lock, per Unlock and per statement in between.

    Everywhere else in this development the code between Lock and Unlock is one step.  Here any number of goroutines call the
    functions that take a mutex, and every statement they execute is a step of its own, in any interleaving.
    A goroutine that is [Idle] executes code that uses none of these data: handlers, callbacks, link, the codec.

    Simplifications: sync.Mutex is a variable that is free or names its owner; who gets it next is open.  One call into
    container/heap, one map access and one slice access is a step.  The map of sessions is iterated in the order of the list.
    Defer is the statement at the end of the function.  Sessions are named by their IDs. *)
From Verif Require Import Base Timer Session Server.

(** Server.mutex, server.go:31; CountdownTimer.mutex, timer.go:67; Session.mux, session.go:27 *)
Inductive mutex := Mserver | Mtimer | Msession (s : Z).
(** the same mutex *)
Definition mutex_eqb (a b : mutex) : bool :=
  match a, b with
  | Mserver, Mserver | Mtimer, Mtimer => true
  | Msession s, Msession s' => s =? s'
  | _, _ => false
  end.

(** What the mutexes are for: Server.sessions, server.go:32; CountdownTimer.q and mapper, timer.go:68-69; Session.requests,
    session.go:28; and CountdownTimer.seconds, timer.go:66, which is accessed atomically ([tm_seconds] is not used here) *)
Record data := Data { da_sessions : list Z; da_timer : timer; da_requests : Z -> list request; da_seconds : Z }.
(** assignments to each of them *)
Definition put_sessions (d : data) (l : list Z) : data := Data l (da_timer d) (da_requests d) (da_seconds d).
(** see above *)
Definition put_timer (d : data) (t : timer) : data := Data (da_sessions d) t (da_requests d) (da_seconds d).
(** see above *)
Definition put_requests (d : data) (s : Z) (l : list request) : data :=
  Data (da_sessions d) (da_timer d) (fun x => if x =? s then l else da_requests d x) (da_seconds d).
(** see above *)
Definition put_seconds (d : data) (n : Z) : data := Data (da_sessions d) (da_timer d) (da_requests d) n.

(** The critical sections:
    [SReg]: session_handler.go:26-28; [SGet]: GetSession, server.go:91-97; [SAll]: Broadcast, server.go:107-112;
    [SDrop]: handleClose, server.go:132-134; [SDel]: Remove, timer.go:102-110; [SIns]: Update, timer.go:94-97;
    [STick]: checkExpirationQueue, timer.go:130-144; [SAdd]: addRequestContext, session.go:195-204;
    [STake]: takeRequestContext, session.go:209-219. *)
Inductive sect := SReg (id : Z) | SGet (id : Z) | SAll | SDrop (id : Z) | SDel (k : Z) | SIns (k x : Z) | STick (now : Z)
  | SAdd (s : Z) (r : request) | STake (s n : Z).
(** the mutex each of them takes, same lines *)
Definition guard (x : sect) : mutex :=
  match x with
  | SReg _ | SGet _ | SAll | SDrop _ => Mserver
  | SDel _ | SIns _ _ | STick _ => Mtimer
  | SAdd s _ | STake s _ => Msession s
  end.

(** What a section finds out: nothing; whether there is such a session; the sessions; the keys that have expired; the request *)
Inductive answer := ANone | AFound (b : bool) | AIds (l : list Z) | AKeys (l : list Z) | AReq (r : option request).

(** The statement a goroutine inside a section executes next:
    [PReg] session_handler.go:27; [PGet] server.go:93; [PMake] 108; [PEach] the head and body of the loop 109-111; [PDrop] 133;
    [PLook] timer.go:105-108; [PUnmap] 109; [PUnq] 110; [PPush] 96; [PMap] 97;
    [PTop] the head of the loop 131-139; [PTopUnq] 140; [PTopUnmap] 141; [PTopKey] 142;
    [PScan] the head of the loop session.go:198-199; [PPut] 200; [PAppend] 204; [PSeek] the head of the loop 212-213; [PLast] 214; [PCut] 215;
    [PDone] the Unlock. *)
Inductive spot :=
  | PReg (id : Z) | PGet (id : Z) | PMake | PEach (left acc : list Z) | PDrop (id : Z)
  | PLook (k : Z) | PUnmap (k : Z) (p : nat) | PUnq (p : nat) | PPush (k x : Z) | PMap (k : Z) (p : nat)
  | PTop (now : Z) (keys : list Z) | PTopUnq (now : Z) (top : nat) (keys : list Z) | PTopUnmap (now : Z) (top : nat) (keys : list Z) | PTopKey (now : Z) (top : nat) (keys : list Z)
  | PScan (s : Z) (r : request) (i : nat) | PPut (s : Z) (r : request) (i : nat) | PAppend (s : Z) (r : request)
  | PSeek (s n : Z) (i : nat) | PLast (s : Z) (i : nat) (r : request) | PCut (s : Z) (r : request)
  | PDone (a : answer).
(** The first statement after Lock, lines as above *)
Definition first_spot (x : sect) : spot :=
  match x with
  | SReg id => PReg id | SGet id => PGet id | SAll => PMake | SDrop id => PDrop id
  | SDel k => PLook k | SIns k x => PPush k x | STick now => PTop now []
  | SAdd s r => PScan s r 0 | STake s n => PSeek s n 0
  end.
(** One statement, lines as above *)
Definition inner (p : spot) (d : data) : res (spot * data) :=
  let t := da_timer d in
  match p with
  | PReg id => Ok (PDone ANone, put_sessions d (id :: filter (fun i => negb (i =? id)) (da_sessions d)))
  | PGet id => Ok (PDone (AFound (mem (da_sessions d) id)), d)
  | PMake => Ok (PEach (da_sessions d) [], d)
  | PEach [] acc => Ok (PDone (AIds acc), d)
  | PEach (x :: l) acc => Ok (PEach l (acc ++ [x]), d)
  | PDrop id => Ok (PDone ANone, put_sessions d (filter (fun i => negb (i =? id)) (da_sessions d)))
  | PLook k => match map_get (tm_map t) k with Some p => Ok (PUnmap k p, d) | None => Ok (PDone ANone, d) end
  | PUnmap k p => Ok (PUnq p, put_timer d (Timer (tm_seconds t) (tm_store t) (tm_q t) (map_del (tm_map t) k)))
  | PUnq p => do h <- q_remove (tm_store t, tm_q t) p ; Ok (PDone ANone, put_timer d (Timer (tm_seconds t) (fst h) (snd h) (tm_map t)))
  | PPush k x =>
      let p := length (tm_store t) in let h := heap_push (tm_store t ++ [Elem k 0 x], tm_q t) p in
      Ok (PMap k p, put_timer d (Timer (tm_seconds t) (fst h) (snd h) (tm_map t)))
  | PMap k p => Ok (PDone ANone, put_timer d (Timer (tm_seconds t) (tm_store t) (tm_q t) (map_set (tm_map t) k p)))
  | PTop now keys =>
      match tm_q t with
      | [] => Ok (PDone (AKeys keys), d)
      | top :: _ => if now <? e_expire (deref (tm_store t) top) then Ok (PDone (AKeys keys), d) else Ok (PTopUnq now top keys, d)
      end
  | PTopUnq now top keys => do h <- q_remove (tm_store t, tm_q t) top ; Ok (PTopUnmap now top keys, put_timer d (Timer (tm_seconds t) (fst h) (snd h) (tm_map t)))
  | PTopUnmap now top keys =>
      Ok (PTopKey now top keys, put_timer d (Timer (tm_seconds t) (tm_store t) (tm_q t) (map_del (tm_map t) (e_key (deref (tm_store t) top)))))
  | PTopKey now top keys => Ok (PTop now (keys ++ [e_key (deref (tm_store t) top)]), d)
  | PScan s r i =>
      match nth_error (da_requests d s) i with
      | Some x => if rq_msgid x =? rq_msgid r then Ok (PPut s r i, d) else Ok (PScan s r (S i), d)
      | None => Ok (PAppend s r, d)
      end
  | PPut s r i => Ok (PDone ANone, put_requests d s (replace_at (da_requests d s) i r))
  | PAppend s r => Ok (PDone ANone, put_requests d s (da_requests d s ++ [r]))
  | PSeek s n i =>
      match nth_error (da_requests d s) i with
      | Some x => if rq_serial x =? n then Ok (PLast s i x, d) else Ok (PSeek s n (S i), d)
      | None => Ok (PDone (AReq None), d)
      end
  | PLast s i r =>
      let l := da_requests d s in
      match nth_error l (length l - 1) with
      | Some z => Ok (PCut s r, put_requests d s (replace_at l i z))
      | None => Panic
      end
  | PCut s r =>
      let l := da_requests d s in
      match l with
      | [] => Panic
      | _ => Ok (PDone (AReq (Some r)), put_requests d s (firstn (length l - 1) l))
      end
  | PDone a => Ok (p, d)
  end.

(** Where a goroutine is: elsewhere; in Update before the clock is read and the deadline computed, timer.go:88-91; in the timer's goroutine
    before the clock is read, timer.go:127; in SetExpiration before the store, timer.go:116; at a Lock; inside, both with what comes afterwards *)
Inductive place :=
  | Idle | AtClock (k : Z) | AtNow | AtStore (n : Z) | AtLock (x : sect) (next : option sect) | Inside (x : sect) (p : spot) (next : option sect).
(** What a goroutine calls *)
Inductive lcall := KSect (x : sect) | KUpdate (k : Z) | KTick | KSet (n : Z).
(** The functions of the package consist of these: HandleSession is [SReg] then [KUpdate], handleClose [SDrop] then [SDel], and so on;
    an Update is its Remove (timer.go:92) and then its own section. *)
Definition starts (c : lcall) : place :=
  match c with
  | KSect x => AtLock x None
  | KUpdate k => AtClock k
  | KTick => AtNow
  | KSet n => if 0 <? n then AtStore n else Idle
  end.

(** The process *)
Record lstate := Lst { ls_held : mutex -> option nat; ls_data : data; ls_at : nat -> place }.
(** Goroutine [i] goes on *)
Definition go_to (s : lstate) (i : nat) (p : place) : lstate := Lst (ls_held s) (ls_data s) (fun j => if Nat.eqb j i then p else ls_at s j).
(** assignment to a mutex, to the data *)
Definition set_held (s : lstate) (m : mutex) (o : option nat) : lstate := Lst (fun m' => if mutex_eqb m' m then o else ls_held s m') (ls_data s) (ls_at s).
(** see above *)
Definition set_data (s : lstate) (d : data) : lstate := Lst (ls_held s) d (ls_at s).

(** What can be seen: a mutex is taken, a section ends with its answer, a deadline is computed *)
Inductive levent := ETook (i : nat) (x : sect) | EFree (i : nat) (x : sect) (a : answer) | EClock (i : nat) (k now x : Z).
(** A goroutine makes a call, or executes its next statement; [now] is the time if it reads the clock *)
Inductive lop := LCall (i : nat) (c : lcall) | LMove (i : nat) (now : Z).

(** One step; a goroutine that waits for a mutex, also for one it holds itself, does nothing *)
Definition lstep (s : lstate) (o : lop) : res (lstate * list levent) :=
  match o with
  | LCall i c => match ls_at s i with Idle => Ok (go_to s i (starts c), []) | _ => Ok (s, []) end
  | LMove i now =>
      match ls_at s i with
      | Idle => Ok (s, [])
      | AtClock k => let x := s64 (now + da_seconds (ls_data s)) in Ok (go_to s i (AtLock (SDel k) (Some (SIns k x))), [EClock i k now x])
      | AtNow => Ok (go_to s i (AtLock (STick now) None), [])
      | AtStore n => Ok (go_to (set_data s (put_seconds (ls_data s) n)) i Idle, [])
      | AtLock x next =>
          match ls_held s (guard x) with
          | None => Ok (go_to (set_held s (guard x) (Some i)) i (Inside x (first_spot x) next), [ETook i x])
          | Some _ => Ok (s, [])
          end
      | Inside x (PDone a) next =>
          Ok (go_to (set_held s (guard x) None) i (match next with Some y => AtLock y None | None => Idle end), [EFree i x a])
      | Inside x p next => do (p', d') <- inner p (ls_data s) ; Ok (go_to (set_data s d') i (Inside x p' next), [])
      end
  end.
(** A history *)
Fixpoint lrun (s : lstate) (ops : list lop) : res (lstate * list levent) :=
  match ops with
  | [] => Ok (s, [])
  | o :: r => do (s1, e1) <- lstep s o ; do (s2, e2) <- lrun s1 r ; Ok (s2, e1 ++ e2)
  end.
(** NewServer, server.go:55-60: no session, an empty timer; newSession, session.go:34-39: no request *)
Definition linit (seconds : Z) : lstate := Lst (fun _ => None) (Data [] (timer_new seconds) (fun _ => []) seconds) (fun _ => Idle).
