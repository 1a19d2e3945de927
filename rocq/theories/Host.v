(** The whole process: a server (Server.v) together with the codec of every
    connection (Codec.v) and the sending goroutine of link.  Messages are no
    longer given; they come out of the bytes of the connections, and what is
    sent goes through the queue of link into bytes.  A panic of any goroutine
    ends the process: neither HandleSession nor the send loop of link recovers.

    What is assumed of github.com/funny/link beyond Server.v (from its published
    source, not in /repo): a session has a channel of 24 messages (server.go:76),
    filled by Send and emptied by one goroutine that passes the messages one
    after the other to codec.Send and closes the session when that fails; when
    the session is closed it stops, possibly after some more messages.

    Simplifications: a message decoded by Receive is delivered in the same step
    (until then it is local to the goroutine); a failed Write writes nothing; a
    read of a closed session may still find bytes; a queued message has its own
    copy of the body (it matters for callers that assign to a body they have sent and
    for the encoder that uses up its body; Pool.v has shared bodies, C105 and C106). *)
From Verif Require Import Base Bits Env Registry Message Codec Timer Session Multipart Server.

(** Where the goroutine of a session is: about to call Receive
    (session_handler.go:36), in its read loop (protocol.go:111), or gone. *)
Inductive phase := AtStart | InRead | Left.
(** A connection: bytes received by the operating system and not yet read,
    bufferReceiving (protocol.go:38), the goroutine, the channel of link, the
    message its goroutine is sending, whether that goroutine runs, publicKey
    (protocol.go:36) *)
Record conn := Conn {
  cn_in : bytes; cn_buf : bytes; cn_at : phase;
  cn_queue : list message; cn_flight : option message; cn_sending : bool;
  cn_pub : option Z }.
(** The process, server.go:25-36 with the sessions of link *)
Record host := Host { ho_sv : server; ho_conns : list (Z * conn) }.
(** NewCodec, protocol.go:18-28, and a new session of link *)
Definition new_conn : conn := Conn [] [] AtStart [] None true None.

(** Lookup of a connection *)
Fixpoint conn_get (l : list (Z * conn)) (id : Z) : option conn :=
  match l with
  | [] => None
  | (i, c) :: t => if i =? id then Some c else conn_get t id
  end.
(** Update of a connection *)
Fixpoint conn_set (l : list (Z * conn)) (id : Z) (c : conn) : list (Z * conn) :=
  match l with
  | [] => [(id, c)]
  | (i, x) :: t => if i =? id then (id, c) :: t else (i, x) :: conn_set t id c
  end.
(** Update of a connection of the process *)
Definition set_conn (h : host) (id : Z) (c : conn) : host := Host (ho_sv h) (conn_set (ho_conns h) id c).
(** Assignments to the receiving side, protocol.go:116, 149, 169, 176 *)
Definition with_recv (c : conn) (i b : bytes) (p : phase) : conn :=
  Conn i b p (cn_queue c) (cn_flight c) (cn_sending c) (cn_pub c).
(** Assignments to the sending side *)
Definition with_send (c : conn) (q : list message) (f : option message) (s : bool) : conn :=
  Conn (cn_in c) (cn_buf c) (cn_at c) q f s (cn_pub c).

(** The capacity of the channel, server.go:76 *)
Definition queue_size : nat := 24.
(** A message sent goes into the channel of its session (link, see above). *)
Definition enqueue (l : list (Z * conn)) (ev : sv_event) : list (Z * conn) :=
  match ev with
  | SvSend id m =>
      match conn_get l id with
      | Some c => conn_set l id (with_send c (cn_queue c ++ [m]) (cn_flight c) (cn_sending c))
      | None => l
      end
  | _ => l
  end.
(** The state of the channel as Server.v sees it *)
Definition queue_op (l : list (Z * conn)) (id : Z) : list sv_op :=
  match conn_get l id with
  | Some c => [OQueue id (length (cn_queue c) =? queue_size)%nat]
  | None => []
  end.

(** Effects: an operation of the server with its effects, bytes written *)
Inductive host_event := HSv (op : sv_op) (evs : list sv_event) | HWire (id : Z) (d : bytes).
(** The steps of a server run as effects *)
Definition sv_events (tr : list (sv_op * list sv_event)) : list host_event := map (fun x => HSv (fst x) (snd x)) tr.

(** An operation of the server, with what it puts into channels *)
Definition perform (h : host) (op : sv_op) : res (host * list host_event) :=
  do (sv1, evs) <- sv_step (ho_sv h) op ;
  let l := fold_left enqueue evs (ho_conns h) in
  do (sv2, tr) <- sv_run sv1 (flat_map (fun ev => match ev with SvSend id _ => queue_op l id | _ => [] end) evs) ;
  Ok (Host sv2 l, HSv op evs :: sv_events tr).

(** What a read finds: up to [k] of the bytes there, or an error *)
Inductive choice := Avail (k : nat) | Broken (e : goerr).

(** After readFromBuffer: deliver the message (session_handler.go:43-112), close
    the session and leave (36-40), or go on reading (protocol.go:111) *)
Definition consume (h : host) (id now : Z) (c : conn) (r : scan * bytes) : res (host * list host_event) :=
  match r with
  | (ScanMsg m, b) => perform (set_conn h id (with_recv c (cn_in c) b AtStart)) (ODeliver id now m)
  | (ScanErr _, b) => perform (set_conn h id (with_recv c (cn_in c) b Left)) (OClose id)
  | (ScanNone, b) => Ok (set_conn h id (with_recv c (cn_in c) b InRead), [])
  | (ScanPanic, _) => Panic
  end.

(** One move of the goroutine of a session: Receive, protocol.go:101-133, called
    by session_handler.go:34-40.  A read takes at least one byte and at most 128
    (protocol.go:110-112), and waits if there is none. *)
Definition turn (env : Env) (priv : option Z) (h : host) (id now : Z) (r : choice) : res (host * list host_event) :=
  match conn_get (ho_conns h) id with
  | None => Ok (h, [])
  | Some c =>
      match cn_at c with
      | Left => Ok (h, [])
      | AtStart => consume h id now c (read_from_buffer env priv (cn_buf c))
      | InRead =>
          match r with
          | Broken _ => perform (set_conn h id (with_recv c (cn_in c) (cn_buf c) Left)) (OClose id)
          | Avail k =>
              let n := Nat.max 1 (Nat.min k 128) in
              match firstn n (cn_in c) with
              | [] => Ok (h, [])
              | d =>
                  let b := cn_buf c ++ d in
                  let c' := with_recv c (skipn n (cn_in c)) b InRead in
                  if 65535 <? zlen b then perform (set_conn h id (with_recv c' (cn_in c') b Left)) (OClose id)
                  else consume h id now c' (read_from_buffer env priv b)
              end
          end
      end
  end.

(** The send loop of link takes a message out of the channel. *)
Definition take (h : host) (id : Z) : res (host * list host_event) :=
  match conn_get (ho_conns h) id with
  | Some c =>
      match cn_sending c, cn_flight c, cn_queue c with
      | true, None, m :: q =>
          let h1 := set_conn h id (with_send c q (Some m) true) in
          do (sv, tr) <- sv_run (ho_sv h1) (queue_op (ho_conns h1) id) ;
          Ok (Host sv (ho_conns h1), sv_events tr)
      | _, _, _ => Ok (h, [])
      end
  | None => Ok (h, [])
  end.
(** codec.Send, protocol.go:60-98; the session is closed when it fails. [rnd]
    is the randomness of OAEP, [wr] the error of Write. *)
Definition write (env : Env) (h : host) (id rnd : Z) (wr : option goerr) : res (host * list host_event) :=
  match conn_get (ho_conns h) id with
  | Some c =>
      match cn_flight c with
      | Some m =>
          match codec_send env (cn_pub c) rnd wr m with
          | Ok d => Ok (set_conn h id (with_send c (cn_queue c) None (cn_sending c)), [HWire id d])
          | Err _ => perform (set_conn h id (with_send c (cn_queue c) None false)) (OClose id)
          | Panic => Panic
          end
      | None => Ok (h, [])
      end
  | None => Ok (h, [])
  end.
(** The send loop of a closed session ends. *)
Definition quit (h : host) (id : Z) : host :=
  match conn_get (ho_conns h) id, obj_get (sv_objs (ho_sv h)) id with
  | Some c, Some o =>
      match cn_flight c with
      | None => if so_closed o then set_conn h id (with_send c (cn_queue c) None false) else h
      | Some _ => h
      end
  | _, _ => h
  end.

(** Steps of the process: an operation of the server other than the arrival of a
    message ([OConnect] makes the connection too), bytes arrive, the goroutine of
    a session or the send loop of link moves, SetPublicKey (session.go:61-67). *)
Inductive host_op :=
| HOp (op : sv_op)
| HArrive (id : Z) (d : bytes)
| HTurn (id now : Z) (r : choice)
| HTake (id : Z)
| HWrite (id rnd : Z) (wr : option goerr)
| HQuit (id : Z)
| HKey (id : Z) (k : option Z).

(** One step; the citations are those of the functions. *)
Definition host_step (env : Env) (priv : option Z) (h : host) (op : host_op) : res (host * list host_event) :=
  match op with
  | HOp (OConnect id now) => perform (set_conn h id new_conn) (OConnect id now)
  | HOp op => perform h op
  | HArrive id d =>
      match conn_get (ho_conns h) id with
      | Some c => Ok (set_conn h id (with_recv c (cn_in c ++ d) (cn_buf c) (cn_at c)), [])
      | None => Ok (h, [])
      end
  | HTurn id now r => turn env priv h id now r
  | HTake id => take h id
  | HWrite id rnd wr => write env h id rnd wr
  | HQuit id => Ok (quit h id, [])
  | HKey id k =>
      match conn_get (ho_conns h) id with
      | Some c => Ok (set_conn h id (Conn (cn_in c) (cn_buf c) (cn_at c) (cn_queue c) (cn_flight c) (cn_sending c) k), [])
      | None => Ok (h, [])
      end
  end.
(** A history of the process: the state reached, and every step with its effects *)
Fixpoint host_run (env : Env) (priv : option Z) (h : host) (ops : list host_op)
  : res (host * list (host_op * list host_event)) :=
  match ops with
  | [] => Ok (h, [])
  | op :: t =>
      do (h1, e1) <- host_step env priv h op ;
      do (h2, tr) <- host_run env priv h1 t ;
      Ok (h2, (op, e1) :: tr)
  end.
