(** server.go and session_handler.go.  User handlers and callbacks appear as
    events; what they do inside (for example calling Send) appears as further
    operations of a history.  Their panics are recovered (session.go:184-188,
    server.go:138-143, 185-189) and have no effect on the state here.

    What is assumed of github.com/funny/link (its source is not in /repo):
    session IDs are never reused; Send queues the message unless the session is
    closed (error) or its queue of 24 messages is full (error, and the session is
    closed); Close sets the close flag once and then runs the registered close
    callbacks in a goroutine; AddCloseCallback on a closed session does nothing. *)
From Verif Require Import Base Bits Env EntTerm EntPlat Registry Message Timer Session Multipart.

(** Results of 0x8001, protocol/response.go *)
Definition result_success : Z := 0.
(** protocol/response.go:10 *)
Definition result_fail : Z := 1.
(** protocol/response.go:14 *)
Definition result_unsupported : Z := 3.

(** Effects: a message queued for sending, a request callback (named by the
    call of Request), a message handler (also named), the refresh of the read timer at a given
    time, the connection is shut (the close flag gets set), the close handler,
    the result of Broadcast. *)
Inductive sv_event :=
| SvSend (id : Z) (m : message)
| SvAnswer (id tok : Z) (m : message)
| SvHandle (id h : Z) (m : message)
| SvRefresh (id now : Z)
| SvShut (id : Z)
| SvClosed (id : Z)
| SvCount (n : Z).

(** A Session object with the state of its link.Session: [so_closed] is the
    close flag of link, [so_full] tells that its send queue is full, [so_cb]
    whether the close callback is registered, [so_ran] whether it has run. *)
Record sobj := Sobj { so_sess : session; so_closed : bool; so_full : bool; so_cb : bool; so_ran : bool }.

(** Server, server.go:25-36, with the objects referred to by running goroutines *)
Record server := Server {
  sv_auto : bool;
  sv_handlers : list (Z * Z);
  sv_timer : timer;
  sv_fs : fs;
  sv_objs : list (Z * sobj);
  sv_reg : list Z }.

(** Options, server.go:17-22: [opt_key] is the length of the modulus of the
    private key in bits, if there is a key.  The close handler is an event. *)
Record options := Options { opt_keepalive : Z; opt_auto : bool; opt_key : option Z }.
(** rsa.PrivateKey.Size: the modulus in whole bytes *)
Definition key_size (bits : Z) : Z := (bits + 7) / 8.
(** NewServer, server.go:41-59, on a file system *)
Definition new_server (f : fs) (o : options) : res server :=
  let ka := if opt_keepalive o <=? 0 then 60 else opt_keepalive o in
  match opt_key o with
  | Some bits => if negb (key_size bits =? 128) then Err ErrKey
                 else Ok (Server (opt_auto o) [] (timer_new ka) f [] [])
  | None => Ok (Server (opt_auto o) [] (timer_new ka) f [] [])
  end.

(** Lookup and update of session objects by ID (the map of server.go:32) *)
Fixpoint obj_get (l : list (Z * sobj)) (id : Z) : option sobj :=
  match l with
  | [] => None
  | (i, o) :: t => if i =? id then Some o else obj_get t id
  end.
(** updates one live Session object (a Go pointer), session.go:22-32 *)
Fixpoint obj_set (l : list (Z * sobj)) (id : Z) (o : sobj) : list (Z * sobj) :=
  match l with
  | [] => [(id, o)]
  | (i, x) :: t => if i =? id then (id, o) :: t else (i, x) :: obj_set t id o
  end.
(** Assignments to fields of Session and Server *)
Definition with_sess (o : sobj) (s : session) : sobj := Sobj s (so_closed o) (so_full o) (so_cb o) (so_ran o).
(** the link session is closed, session.go:115-117 *)
Definition shut (o : sobj) : sobj := Sobj (so_sess o) true (so_full o) (so_cb o) (so_ran o).
(** stores a Session object *)
Definition set_obj (sv : server) (id : Z) (o : sobj) : server :=
  Server (sv_auto sv) (sv_handlers sv) (sv_timer sv) (sv_fs sv) (obj_set (sv_objs sv) id o) (sv_reg sv).
(** stores the timer, server.go:25-38 *)
Definition set_timer (sv : server) (t : timer) : server :=
  Server (sv_auto sv) (sv_handlers sv) t (sv_fs sv) (sv_objs sv) (sv_reg sv).
(** stores the file system *)
Definition set_fs (sv : server) (f : fs) : server :=
  Server (sv_auto sv) (sv_handlers sv) (sv_timer sv) f (sv_objs sv) (sv_reg sv).
(** stores server.sessions, server.go:25-38 *)
Definition set_reg (sv : server) (r : list Z) : server :=
  Server (sv_auto sv) (sv_handlers sv) (sv_timer sv) (sv_fs sv) (sv_objs sv) r.

(** map lookup in server.sessions, server.go:90-98 *)
Definition mem (l : list Z) (x : Z) : bool := existsb (fun y => y =? x) l.

(** GetSession, server.go:90-98 *)
Definition get_session (sv : server) (id : Z) : bool := mem (sv_reg sv) id.

(** AddHandler of a handler named [h], server.go:124-128 (a nil handler is
    ignored there).  The map is a list in which the first entry of a key counts. *)
Definition add_handler (sv : server) (msgid h : Z) : server :=
  Server (sv_auto sv) ((msgid, h) :: sv_handlers sv) (sv_timer sv) (sv_fs sv) (sv_objs sv) (sv_reg sv).

(** Send, session.go:70-85, on the session object [o] with ID [id]: the serial
    number is drawn in any case; a full queue shuts the connection. *)
Definition sv_send (sv : server) (id : Z) (o : sobj) (e : entity) : server * sobj * list sv_event :=
  let '(m, s) := session_send (so_sess o) e in
  let o' := with_sess o s in
  if so_closed o then (set_obj sv id o', o', [])
  else if so_full o then (set_obj sv id (shut o'), shut o', [SvShut id])
  else (set_obj sv id o', o', [SvSend id m]).

(** Request with a callback named [tok], session.go:98-112 *)
Definition sv_request (sv : server) (id : Z) (o : sobj) (tok : Z) (e : entity) : server * list sv_event :=
  let '(sv1, o1, evs) := sv_send sv id o e in
  match evs with
  | [SvSend _ m] =>
      let s := so_sess o1 in
      (set_obj sv1 id (with_sess o1 (Session (ss_next s) (ss_icc s)
         (add_request (ss_reqs s) (Request (entity_id e) (h_serial (m_hdr m)) tok)))), evs)
  | _ => (sv1, evs)
  end.

(** messageHandlers.Load, server.go:177 *)
Fixpoint load_handler (l : list (Z * Z)) (msgid : Z) : option Z :=
  match l with
  | [] => None
  | (i, h) :: t => if i =? msgid then Some h else load_handler t msgid
  end.
(** dispatchMessage, server.go:172-192 *)
Definition dispatch (sv : server) (id now : Z) (m : message) : res (server * list sv_event) :=
  match load_handler (sv_handlers sv) (h_id (m_hdr m)) with
  | Some h =>
      do t <- timer_update (sv_timer sv) id now ;
      Ok (set_timer sv t, [SvRefresh id now; SvHandle id h m])
  | None => Ok (sv, [])
  end.

(** session.message followed by dispatchMessage, session_handler.go:50-51, 58-59, 110-111 *)
Definition message_and_dispatch (sv : server) (id now : Z) (o : sobj) (m : message)
  : res (server * list sv_event) :=
  do (s, cb) <- session_message (so_sess o) m ;
  do (sv', evs) <- dispatch (set_obj sv id (with_sess o s)) id now m ;
  Ok (sv', (match cb with Some tok => [SvAnswer id tok m] | None => [] end) ++ evs).

(** protocol.EntityPacket, protocol/entity.go: only 0x0801 implements it *)
Definition as_packet (b : body) : option t0801 :=
  match b with BEnt (E0801 e) => Some e | _ => None end.

(** One iteration of the loop of HandleSession, session_handler.go:43-112 *)
Definition deliver (sv : server) (id now : Z) (o : sobj) (m : message) : res (server * list sv_event) :=
  match m_body m with
  | BEnt b =>
      if negb (sv_auto sv) || negb (is_enable_packet (h_prop (m_hdr m))) then
        message_and_dispatch sv id now o m
      else
        match b with
        | E0801 e =>
            match h_packet (m_hdr m), a0801_packet e with
            | Some (sum, sq), Some r =>
                let mf := Mpf (h_icc (m_hdr m)) (h_id (m_hdr m)) (a0800_media (a0801_head e)) sum in
                if rdr_fail r then
                  let '(sv1, _, evs) := sv_send sv id o (reply_entity m result_fail) in Ok (sv1, evs)
                else
                  match mp_write (sv_fs sv) mf sq (rdr_data r) with
                  | Panic => Panic
                  | Err _ =>
                      let '(sv1, _, evs) := sv_send sv id o (reply_entity m result_fail) in Ok (sv1, evs)
                  | Ok f1 =>
                      let '(sv1, o1, evs) := sv_send (set_fs sv f1) id o (reply_entity m result_success) in
                      if negb (sq =? sum) then Ok (sv1, evs)
                      else
                        do full <- is_full f1 mf ;
                        if negb full then Ok (sv1, evs)
                        else
                          match mp_merge f1 mf with
                          | Panic => Panic
                          | Err _ => Ok (sv1, evs)
                          | Ok (content, f2) =>
                              let m' := Message (m_hdr m)
                                (BEnt (E0801 (T0801 (a0801_head e) (a0801_loc e) (Some (Rdr content false))))) in
                              do (sv2, evs2) <- message_and_dispatch (set_fs sv1 f2) id now o1 m' ;
                              Ok (sv2, evs ++ evs2)
                          end
                  end
            | _, _ => Panic
            end
        | _ => message_and_dispatch sv id now o m
        end
  | _ =>
      let '(sv1, _, evs) := sv_send sv id o (reply_entity m result_unsupported) in Ok (sv1, evs)
  end.

(** Session.Close, session.go:115-117: link sets the close flag once; the
    registered callbacks then run in a goroutine of their own ([ORunClose] below). *)
Definition close_session (sv : server) (id : Z) : server * list sv_event :=
  match obj_get (sv_objs sv) id with
  | None => (sv, [])
  | Some o => if so_closed o then (sv, []) else (set_obj sv id (shut o), [SvShut id])
  end.

(** handleClose, server.go:131-151 *)
Definition handle_close (sv : server) (id : Z) : res (server * list sv_event) :=
  let sv1 := set_reg sv (filter (fun i => negb (i =? id)) (sv_reg sv)) in
  do t <- timer_remove (sv_timer sv1) id ;
  Ok (set_timer sv1 t, [SvClosed id]).

(** handleReadTimeout, server.go:154-169, for the key of session [id] *)
Definition handle_read_timeout (sv : server) (id : Z) : server * list sv_event :=
  if get_session sv id then close_session sv id else (sv, []).
(** The callbacks of one tick, timer.go:137-143 *)
Fixpoint timeouts_loop (sv : server) (ids : list Z) : server * list sv_event :=
  match ids with
  | [] => (sv, [])
  | id :: t =>
      let '(sv1, e1) := handle_read_timeout sv id in
      let '(sv2, e2) := timeouts_loop sv1 t in
      (sv2, e1 ++ e2)
  end.

(** Broadcast, server.go:106-121 (map order: registration order here) *)
Fixpoint broadcast_loop (sv : server) (ids : list Z) (e : entity) : server * list sv_event :=
  match ids with
  | [] => (sv, [])
  | id :: t =>
      match obj_get (sv_objs sv) id with
      | None => broadcast_loop sv t e
      | Some o =>
          let '(sv1, _, evs) := sv_send sv id o e in
          let '(sv2, evs2) := broadcast_loop sv1 t e in
          (sv2, evs ++ evs2)
      end
  end.

(** Atomic steps of a server.
    [OConnect]: session_handler.go:25-29 (no close callback can run in between);
    [OAddCb]: 30-32; [ODeliver]: one loop iteration; [OClose]: Session.Close by the
    user, by link, or after a failed Receive (36-40); [ORunClose]: link runs the
    close callback of a closed session; [OTick]: a tick of the timer with its
    callbacks; [OSendTo], [ORequest]: Session.Send and Session.Request;
    [OQueue]: the send queue of a session becomes full or not. *)
Inductive sv_op :=
| OConnect (id now : Z)
| OAddCb (id : Z)
| ODeliver (id now : Z) (m : message)
| OClose (id : Z)
| ORunClose (id : Z)
| OTick (now : Z)
| OBroadcast (e : entity)
| OSendTo (id : Z) (e : entity)
| ORequest (id tok : Z) (e : entity)
| OAddHandler (msgid h : Z)
| OQueue (id : Z) (full : bool).

(** selects the sends of a history *)
Definition is_send (ev : sv_event) : bool := match ev with SvSend _ _ => true | _ => false end.

(** One step; the citations are those of [sv_op]. *)
Definition sv_step (sv : server) (op : sv_op) : res (server * list sv_event) :=
  match op with
  | OConnect id now =>
      let sv1 := set_obj sv id (Sobj new_session false false false false) in
      let sv2 := set_reg sv1 (id :: sv_reg sv1) in
      do t <- timer_update (sv_timer sv2) id now ;
      Ok (set_timer sv2 t, [SvRefresh id now])
  | OAddCb id =>
      match obj_get (sv_objs sv) id with
      | None => Ok (sv, [])
      | Some o => Ok (if so_closed o then sv
                      else set_obj sv id (Sobj (so_sess o) false (so_full o) true (so_ran o)), [])
      end
  | ODeliver id now m =>
      match obj_get (sv_objs sv) id with
      | None => Ok (sv, [])
      | Some o => deliver sv id now o m
      end
  | OClose id => Ok (close_session sv id)
  | ORunClose id =>
      match obj_get (sv_objs sv) id with
      | None => Ok (sv, [])
      | Some o =>
          if so_closed o && so_cb o && negb (so_ran o) then
            handle_close (set_obj sv id (Sobj (so_sess o) true (so_full o) true true)) id
          else Ok (sv, [])
      end
  | OTick now =>
      do (t, keys) <- timer_check (sv_timer sv) now ;
      Ok (timeouts_loop (set_timer sv t) keys)
  | OBroadcast e =>
      let '(sv1, evs) := broadcast_loop sv (sv_reg sv) e in
      Ok (sv1, evs ++ [SvCount (zlen (filter is_send evs))])
  | OSendTo id e =>
      match obj_get (sv_objs sv) id with
      | None => Ok (sv, [])
      | Some o => let '(sv1, _, evs) := sv_send sv id o e in Ok (sv1, evs)
      end
  | ORequest id tok e =>
      match obj_get (sv_objs sv) id with
      | None => Ok (sv, [])
      | Some o => Ok (sv_request sv id o tok e)
      end
  | OAddHandler msgid h => Ok (add_handler sv msgid h, [])
  | OQueue id b =>
      match obj_get (sv_objs sv) id with
      | None => Ok (sv, [])
      | Some o => Ok (set_obj sv id (Sobj (so_sess o) (so_closed o) b (so_cb o) (so_ran o)), [])
      end
  end.

(** A history: the state reached, and every step with its effects. *)
Fixpoint sv_run (sv : server) (ops : list sv_op) : res (server * list (sv_op * list sv_event)) :=
  match ops with
  | [] => Ok (sv, [])
  | op :: t =>
      do (sv1, e1) <- sv_step sv op ;
      do (sv2, tr) <- sv_run sv1 t ;
      Ok (sv2, (op, e1) :: tr)
  end.
