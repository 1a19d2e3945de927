(** server.go and session_handler.go goroutine by goroutine: a step is one
    critical section, one atomic operation or one call out of the package.  Server.v
    has whole messages, ticks, close callbacks and Broadcasts as steps; here
    they interleave.  The timer is that of Timer.v under concurrent use, every session that of Session.v under
    concurrent use.

    Simplifications: the successful compare-and-swap of nextID stands for nextID
    (C30, C74); of the file accesses of an upload only the results appear (World.v
    has the accesses); handlers and callbacks are events, what they call appears as calls
    by further goroutines; github.com/funny/link is assumed as in Server.v. *)
From Verif Require Import Base Bits Env EntTerm EntPlat Registry Message Timer Session Server.

(** What follows an Update: HandleSession goes on (session_handler.go:30), or the handler is called (server.go:191) *)
Inductive then_ := ThenAddCb | ThenRun (h : Z) (m : message).
(** Where the goroutine of HandleSession is, session_handler.go:18-114 *)
Inductive gpc :=
| GClock (k : then_)                                  (* timer.go:88-91 *)
| GDel (k : then_)                                    (* timer.go:92 *)
| GIns (k : then_)                                    (* timer.go:94-97 *)
| GAddCb                                              (* session_handler.go:30-32 *)
| GRecv                                               (* session_handler.go:36 *)
| GStore (m : message)                                (* session_handler.go:63-91: a packet of an upload *)
| GReply (e : entity) (then_merge : option message)   (* session.go:94, about to enter Send *)
| GSend (tok : Z) (then_merge : option message)       (* inside Send *)
| GMerge (m : message)                                (* session_handler.go:94-109 *)
| GIcc (m : message)                                  (* session.go:139-149 *)
| GTake (m : message)                                 (* session.go:151-190 *)
| GLoad (m : message)                                 (* server.go:177 *)
| GRun (h : Z) (m : message)                          (* server.go:191 *)
| GBusy (then_load : option message)                  (* inside a callback (session.go:189), then dispatchMessage; or inside a handler *)
| GEnd.                                               (* session_handler.go:39 *)
(** Where the goroutine is that runs the close callback, server.go:131-151: not begun, before timer.Remove, before the close handler, over *)
Inductive cpc := CNot | CTimer | CHandler | COver.
(** Where the goroutine of the timer is, timer.go:121-152 and server.go:154-169: the keys it still has to call back, or it has found the session *)
Inductive tpc := TKeys (keys : list Z) | TFound (id : Z) (keys : list Z).
(** A Session with its link.Session (flags as in Server.v) and its goroutines *)
Record fobj := Fobj { fo_cfg : scfg; fo_pc : gpc; fo_closed : bool; fo_full : bool; fo_cb : bool; fo_close : cpc }.
(** A goroutine inside Broadcast, server.go:106-121: the sessions still to come, the call of Send it is in, the count *)
Record cast := Cast { ca_ent : entity; ca_left : list Z; ca_cur : option (Z * Z); ca_count : Z }.
(** Server, server.go:25-36, with all goroutines; calls of Send and Broadcast are numbered *)
Record fine := Fine {
  fi_auto : bool; fi_handlers : list (Z * Z); fi_tc : tcfg; fi_objs : list (Z * fobj); fi_reg : list Z;
  fi_tick : tpc; fi_casts : list (Z * cast); fi_toks : Z }.

(** Steps.  [FConnect]: session_handler.go:24-27; [FClock], [FDel], [FIns]: Update, timer.go:87-98; [FAddCb]: session_handler.go:30-32;
    [FRecv]: 36-62, [FFail]: 36-39; [FStored]: 63-91 end, the packet is stored or not; [FMerged]: 94-109 end, with the content of the upload or not; [FIcc], [FTake]: session.go:138-191; [FLoad]: server.go:177; [FRun]: 191; [FReturn]: the callback or handler returns or panics;
    [FReply]: the goroutine enters Send to answer; [FStart]: a user enters Send or Request ([cb]); [FNext], [FWire], [FAdd]: the rest of the call, session.go:76-110;
    [FCast], [FCastNext], [FCastEnd]: Broadcast, server.go:106-121; [FLook]: GetSession, 90-98; [FShut]: Close by anybody but the timer; [FQueue]: the queue of link fills or drains;
    [FTick]: timer.go:127-143; [FGet], [FTimeout]: handleReadTimeout, server.go:160-164; [FGone], [FRemove], [FClosed]: handleClose, server.go:132-145;
    [FHandler]: AddHandler, server.go:124-128. *)
Inductive fop :=
| FConnect (id : Z)
| FClock (id now : Z)
| FDel (id : Z)
| FIns (id : Z)
| FAddCb (id : Z)
| FRecv (id : Z) (m : message)
| FStored (id : Z) (ok : bool)
| FMerged (id : Z) (c : option bytes)
| FFail (id : Z)
| FIcc (id : Z)
| FTake (id : Z)
| FLoad (id : Z)
| FRun (id : Z)
| FReturn (id : Z)
| FReply (id : Z)
| FStart (id : Z) (cb : bool) (e : entity)
| FNext (id tok : Z)
| FWire (id tok : Z)
| FAdd (id tok : Z)
| FCast (e : entity)
| FCastNext (b id : Z)
| FCastEnd (b : Z)
| FLook (id : Z)
| FShut (id : Z)
| FQueue (id : Z) (full : bool)
| FTick (now : Z)
| FGet
| FTimeout
| FGone (id : Z)
| FRemove (id : Z)
| FClosed (id : Z)
| FHandler (msgid h : Z).

(** Effects, one for each step above that does something; [XReplied]: the goroutine of a session returns from Reply;
    [XFail]: it ends; [XShut]: the close flag of a session gets set *)
Inductive fevent :=
| XConnect (id : Z)
| XClock (id now : Z)
| XDel (id : Z)
| XIns (id : Z)
| XAddCb (id : Z) (ok : bool)
| XRecv (id : Z) (m : message)
| XStored (id : Z) (ok : bool)
| XMerged (id : Z) (c : option bytes)
| XIcc (id : Z) (m : message)
| XTake (id : Z) (m : message) (tok : option Z)
| XLoad (id : Z) (m : message) (h : option Z)
| XHandle (id h : Z) (m : message)
| XReturn (id : Z)
| XReply (id tok : Z) (e : entity)
| XReplied (id tok : Z)
| XFail (id : Z)
| XStart (id tok : Z) (cb : bool) (e : entity)
| XNext (id tok n : Z)
| XWire (id tok : Z) (sent : option message)
| XAdd (id tok : Z)
| XCast (b : Z) (e : entity) (ids : list Z)
| XCastTo (b id tok : Z) (e : entity)
| XCount (b n : Z)
| XLook (id : Z) (found : bool)
| XShut (id : Z)
| XTick (now : Z) (keys : list Z)
| XGet (id : Z) (found : bool)
| XTimeout (id : Z)
| XGone (id : Z)
| XRemove (id : Z)
| XClosed (id : Z)
| XHandler (msgid h : Z).

(** Lookup and assignment of sessions by ID *)
Fixpoint fobj_get (l : list (Z * fobj)) (id : Z) : option fobj :=
  match l with
  | [] => None
  | (i, o) :: t => if i =? id then Some o else fobj_get t id
  end.
(** assignment to a session *)
Fixpoint fobj_set (l : list (Z * fobj)) (id : Z) (o : fobj) : list (Z * fobj) :=
  match l with
  | [] => [(id, o)]
  | (i, x) :: t => if i =? id then (id, o) :: t else (i, x) :: fobj_set t id o
  end.
(** Lookup, assignment and end of a Broadcast *)
Fixpoint cast_get (l : list (Z * cast)) (b : Z) : option cast :=
  match l with
  | [] => None
  | (i, c) :: t => if i =? b then Some c else cast_get t b
  end.
(** a Broadcast goes on *)
Fixpoint cast_set (l : list (Z * cast)) (b : Z) (c : cast) : list (Z * cast) :=
  match l with
  | [] => []
  | (i, x) :: t => if i =? b then (i, c) :: t else (i, x) :: cast_set t b c
  end.
(** a Broadcast returns *)
Definition cast_del (l : list (Z * cast)) (b : Z) : list (Z * cast) := filter (fun x => negb (fst x =? b)) l.
(** Assignments to the parts of the state *)
Definition set_fobj (s : fine) (id : Z) (o : fobj) : fine :=
  Fine (fi_auto s) (fi_handlers s) (fi_tc s) (fobj_set (fi_objs s) id o) (fi_reg s) (fi_tick s) (fi_casts s) (fi_toks s).
(** the timer *)
Definition set_tc (s : fine) (t : tcfg) : fine :=
  Fine (fi_auto s) (fi_handlers s) t (fi_objs s) (fi_reg s) (fi_tick s) (fi_casts s) (fi_toks s).
(** server.sessions *)
Definition set_freg (s : fine) (r : list Z) : fine :=
  Fine (fi_auto s) (fi_handlers s) (fi_tc s) (fi_objs s) r (fi_tick s) (fi_casts s) (fi_toks s).
(** the timer's goroutine *)
Definition set_tick (s : fine) (t : tpc) : fine :=
  Fine (fi_auto s) (fi_handlers s) (fi_tc s) (fi_objs s) (fi_reg s) t (fi_casts s) (fi_toks s).
(** the Broadcasts *)
Definition set_casts (s : fine) (l : list (Z * cast)) : fine :=
  Fine (fi_auto s) (fi_handlers s) (fi_tc s) (fi_objs s) (fi_reg s) (fi_tick s) l (fi_toks s).
(** a call is numbered *)
Definition count_tok (s : fine) : fine :=
  Fine (fi_auto s) (fi_handlers s) (fi_tc s) (fi_objs s) (fi_reg s) (fi_tick s) (fi_casts s) (fi_toks s + 1).
(** the goroutine of a session goes on *)
Definition at_pc (o : fobj) (p : gpc) : fobj := Fobj (fo_cfg o) p (fo_closed o) (fo_full o) (fo_cb o) (fo_close o).
(** the Session changes *)
Definition with_cfg (o : fobj) (c : scfg) : fobj := Fobj c (fo_pc o) (fo_closed o) (fo_full o) (fo_cb o) (fo_close o).
(** the close callback goes on *)
Definition at_close (o : fobj) (p : cpc) : fobj := Fobj (fo_cfg o) (fo_pc o) (fo_closed o) (fo_full o) (fo_cb o) p.
(** the close flag *)
Definition fshut (o : fobj) : fobj := Fobj (fo_cfg o) (fo_pc o) true (fo_full o) (fo_cb o) (fo_close o).

(** Session.Close, session.go:115-117 *)
Definition fclose (s : fine) (id : Z) (o : fobj) : fine * list fevent :=
  if fo_closed o then (s, []) else (set_fobj s id (fshut o), [XShut id]).
(** Where HandleSession goes with a received message, session_handler.go:43-62 *)
Definition on_message (auto : bool) (m : message) : res gpc :=
  match m_body m with
  | BEnt b =>
      if negb auto || negb (is_enable_packet (h_prop (m_hdr m))) then Ok (GIcc m)
      else
        match b with
        | E0801 e => match h_packet (m_hdr m), a0801_packet e with Some _, Some _ => Ok (GStore m) | _, _ => Panic end
        | _ => Ok (GIcc m)
        end
  | _ => Ok (GReply (reply_entity m result_unsupported) None)
  end.
(** The message of an upload that was merged, session_handler.go:109 *)
Definition whole_message (m : message) (c : bytes) : message :=
  match m_body m with
  | BEnt (E0801 e) => Message (m_hdr m) (BEnt (E0801 (T0801 (a0801_head e) (a0801_loc e) (Some (Rdr c false)))))
  | _ => m
  end.
(** What follows an Update *)
Definition go_on (k : then_) : gpc := match k with ThenAddCb => GAddCb | ThenRun h m => GRun h m end.
(** What follows a Reply: the next message, or IsFull, session_handler.go:94 *)
Definition after_reply (p : option message) : gpc := match p with None => GRecv | Some m => GMerge m end.
(** The goroutine of the session returns from its call of Send *)
Definition returned (id : Z) (o : fobj) (tok : Z) : fobj * list fevent :=
  match fo_pc o with
  | GSend t p => if t =? tok then (at_pc o (after_reply p), [XReplied id tok]) else (o, [])
  | _ => (o, [])
  end.
(** A Broadcast returns from a call of Send and counts, server.go:116-118 *)
Definition cast_returned (tok : Z) (ok : bool) (x : Z * cast) : Z * cast :=
  let '(b, c) := x in
  match ca_cur c with
  | Some (_, t) => if t =? tok then (b, Cast (ca_ent c) (ca_left c) None (ca_count c + (if ok then 1 else 0))) else x
  | None => x
  end.
(** What link says to a message, link.Session.Send: refused if closed or full; a full queue also closes *)
Definition link_send (o : fobj) : bool * bool := if fo_closed o then (false, false) else if fo_full o then (false, true) else (true, false).
(** The message of a call that has drawn its number *)
Definition call_message (c : scfg) (tok : Z) : option message :=
  match find_call (sc_calls c) tok with
  | Some (Call _ _ e icc (Some n) false) => Some (Message (Header (entity_id e) 0 icc n None) (BEnt e))
  | _ => None
  end.
(** The callback run with a message, session.go:182-190: that of the request taken *)
Definition taken (c : scfg) (m : message) : option Z :=
  match reply_serial m with
  | Ok n => if n =? 0 then None else match fst (take_request (ss_reqs (sc_sess c)) n) with Some r => Some (rq_tok r) | None => None end
  | _ => None
  end.
(** A call enters Send: iccID is loaded, session.go:75 *)
Definition enter (s : fine) (id : Z) (o : fobj) (cb : bool) (e : entity) : res (fine * fobj) :=
  do c <- sstep (fo_cfg o) (SStart (fi_toks s) cb e) ;
  Ok (count_tok s, with_cfg o c).

(** One step; a step that cannot be taken does nothing.  The citations are those of [fop]. *)
Definition fstep (s : fine) (op : fop) : res (fine * list fevent) :=
  match op with
  | FConnect id =>
      match fobj_get (fi_objs s) id with
      | Some _ => Ok (s, [])
      | None => Ok (set_freg (set_fobj s id (Fobj sinit (GClock ThenAddCb) false false false CNot)) (id :: fi_reg s), [XConnect id])
      end
  | FClock id now =>
      match fobj_get (fi_objs s) id with
      | Some o =>
          match fo_pc o with
          | GClock k => do t <- tstep (fi_tc s) (TStart id id now) ; Ok (set_tc (set_fobj s id (at_pc o (GDel k))) t, [XClock id now])
          | _ => Ok (s, [])
          end
      | None => Ok (s, [])
      end
  | FDel id =>
      match fobj_get (fi_objs s) id with
      | Some o =>
          match fo_pc o with
          | GDel k => do t <- tstep (fi_tc s) (TDel id) ; Ok (set_tc (set_fobj s id (at_pc o (GIns k))) t, [XDel id])
          | _ => Ok (s, [])
          end
      | None => Ok (s, [])
      end
  | FIns id =>
      match fobj_get (fi_objs s) id with
      | Some o =>
          match fo_pc o with
          | GIns k => do t <- tstep (fi_tc s) (TIns id) ; Ok (set_tc (set_fobj s id (at_pc o (go_on k))) t, [XIns id])
          | _ => Ok (s, [])
          end
      | None => Ok (s, [])
      end
  | FAddCb id =>
      match fobj_get (fi_objs s) id with
      | Some o =>
          match fo_pc o with
          | GAddCb => Ok (set_fobj s id (Fobj (fo_cfg o) GRecv (fo_closed o) (fo_full o) (negb (fo_closed o)) (fo_close o)), [XAddCb id (negb (fo_closed o))])
          | _ => Ok (s, [])
          end
      | None => Ok (s, [])
      end
  | FRecv id m =>
      match fobj_get (fi_objs s) id with
      | Some o =>
          match fo_pc o with
          | GRecv => do p <- on_message (fi_auto s) m ; Ok (set_fobj s id (at_pc o p), [XRecv id m])
          | _ => Ok (s, [])
          end
      | None => Ok (s, [])
      end
  | FStored id ok =>
      match fobj_get (fi_objs s) id with
      | Some o =>
          match fo_pc o with
          | GStore m =>
              Ok (set_fobj s id (at_pc o (if ok then GReply (reply_entity m result_success) (Some m) else GReply (reply_entity m result_fail) None)), [XStored id ok])
          | _ => Ok (s, [])
          end
      | None => Ok (s, [])
      end
  | FMerged id c =>
      match fobj_get (fi_objs s) id with
      | Some o =>
          match fo_pc o with
          | GMerge m => Ok (set_fobj s id (at_pc o (match c with Some d => GIcc (whole_message m d) | None => GRecv end)), [XMerged id c])
          | _ => Ok (s, [])
          end
      | None => Ok (s, [])
      end
  | FFail id =>
      match fobj_get (fi_objs s) id with
      | Some o =>
          match fo_pc o with
          | GRecv => let '(s1, evs) := fclose (set_fobj s id (at_pc o GEnd)) id (at_pc o GEnd) in Ok (s1, XFail id :: evs)
          | _ => Ok (s, [])
          end
      | None => Ok (s, [])
      end
  | FIcc id =>
      match fobj_get (fi_objs s) id with
      | Some o =>
          match fo_pc o with
          | GIcc m => do c <- sstep (fo_cfg o) (SIcc m) ; Ok (set_fobj s id (at_pc (with_cfg o c) (GTake m)), [XIcc id m])
          | _ => Ok (s, [])
          end
      | None => Ok (s, [])
      end
  | FTake id =>
      match fobj_get (fi_objs s) id with
      | Some o =>
          match fo_pc o with
          | GTake m =>
              do c <- sstep (fo_cfg o) STake ;
              let cb := taken (fo_cfg o) m in
              Ok (set_fobj s id (at_pc (with_cfg o c) (match cb with Some _ => GBusy (Some m) | None => GLoad m end)), [XTake id m cb])
          | _ => Ok (s, [])
          end
      | None => Ok (s, [])
      end
  | FLoad id =>
      match fobj_get (fi_objs s) id with
      | Some o =>
          match fo_pc o with
          | GLoad m =>
              let h := load_handler (fi_handlers s) (h_id (m_hdr m)) in
              Ok (set_fobj s id (at_pc o (match h with Some n => GClock (ThenRun n m) | None => GRecv end)), [XLoad id m h])
          | _ => Ok (s, [])
          end
      | None => Ok (s, [])
      end
  | FRun id =>
      match fobj_get (fi_objs s) id with
      | Some o => match fo_pc o with GRun h m => Ok (set_fobj s id (at_pc o (GBusy None)), [XHandle id h m]) | _ => Ok (s, []) end
      | None => Ok (s, [])
      end
  | FReturn id =>
      match fobj_get (fi_objs s) id with
      | Some o =>
          match fo_pc o with
          | GBusy p => Ok (set_fobj s id (at_pc o (match p with Some m => GLoad m | None => GRecv end)), [XReturn id])
          | _ => Ok (s, [])
          end
      | None => Ok (s, [])
      end
  | FReply id =>
      match fobj_get (fi_objs s) id with
      | Some o =>
          match fo_pc o with
          | GReply e p => do (s1, o1) <- enter s id o false e ; Ok (set_fobj s1 id (at_pc o1 (GSend (fi_toks s) p)), [XReply id (fi_toks s) e])
          | _ => Ok (s, [])
          end
      | None => Ok (s, [])
      end
  | FStart id cb e =>
      match fobj_get (fi_objs s) id with
      | Some o => do (s1, o1) <- enter s id o cb e ; Ok (set_fobj s1 id o1, [XStart id (fi_toks s) cb e])
      | None => Ok (s, [])
      end
  | FNext id tok =>
      match fobj_get (fi_objs s) id with
      | Some o =>
          match find_call (sc_calls (fo_cfg o)) tok with
          | Some (Call _ _ _ _ None _) =>
              do c <- sstep (fo_cfg o) (SNext tok) ;
              Ok (set_fobj s id (with_cfg o c), [XNext id tok (ss_next (sc_sess c))])
          | _ => Ok (s, [])
          end
      | None => Ok (s, [])
      end
  | FWire id tok =>
      match fobj_get (fi_objs s) id with
      | Some o =>
          match call_message (fo_cfg o) tok with
          | Some m =>
              let '(ok, closes) := link_send o in
              do c <- sstep (fo_cfg o) (SWire tok ok) ;
              let '(o1, evs) := returned id (with_cfg o c) tok in
              Ok (set_casts (set_fobj s id (if closes then fshut o1 else o1)) (map (cast_returned tok ok) (fi_casts s)),
                  XWire id tok (if ok then Some m else None) :: (if closes then [XShut id] else []) ++ evs)
          | None => Ok (s, [])
          end
      | None => Ok (s, [])
      end
  | FAdd id tok =>
      match fobj_get (fi_objs s) id with
      | Some o =>
          match find_call (sc_calls (fo_cfg o)) tok with
          | Some (Call _ _ _ _ (Some _) true) => do c <- sstep (fo_cfg o) (SAdd tok) ; Ok (set_fobj s id (with_cfg o c), [XAdd id tok])
          | _ => Ok (s, [])
          end
      | None => Ok (s, [])
      end
  | FCast e => Ok (set_casts (count_tok s) ((fi_toks s, Cast e (fi_reg s) None 0) :: fi_casts s), [XCast (fi_toks s) e (fi_reg s)])
  | FCastNext b id =>
      match cast_get (fi_casts s) b with
      | Some (Cast e ids None n) =>
          if mem ids id then
            match fobj_get (fi_objs s) id with
            | Some o =>
                do (s1, o1) <- enter s id o false e ;
                Ok (set_casts (set_fobj s1 id o1) (cast_set (fi_casts s) b (Cast e (remove Z.eq_dec id ids) (Some (id, fi_toks s)) n)), [XCastTo b id (fi_toks s) e])
            | None => Ok (s, [])
            end
          else Ok (s, [])
      | _ => Ok (s, [])
      end
  | FCastEnd b =>
      match cast_get (fi_casts s) b with
      | Some (Cast _ [] None n) => Ok (set_casts s (cast_del (fi_casts s) b), [XCount b n])
      | _ => Ok (s, [])
      end
  | FLook id => Ok (s, [XLook id (mem (fi_reg s) id)])
  | FShut id => match fobj_get (fi_objs s) id with Some o => Ok (fclose s id o) | None => Ok (s, []) end
  | FQueue id b =>
      match fobj_get (fi_objs s) id with
      | Some o => Ok (set_fobj s id (Fobj (fo_cfg o) (fo_pc o) (fo_closed o) b (fo_cb o) (fo_close o)), [])
      | None => Ok (s, [])
      end
  | FTick now =>
      match fi_tick s with
      | TKeys [] =>
          do t <- tstep (fi_tc s) (TTick now) ;
          let keys := match tc_fired t with (_, ks) :: _ => ks | [] => [] end in
          Ok (set_tick (set_tc s t) (TKeys keys), [XTick now keys])
      | _ => Ok (s, [])
      end
  | FGet =>
      match fi_tick s with
      | TKeys (id :: keys) =>
          let found := mem (fi_reg s) id in
          Ok (set_tick s (if found then TFound id keys else TKeys keys), [XGet id found])
      | _ => Ok (s, [])
      end
  | FTimeout =>
      match fi_tick s with
      | TFound id keys =>
          match fobj_get (fi_objs s) id with
          | Some o => let '(s1, evs) := fclose (set_tick s (TKeys keys)) id o in Ok (s1, XTimeout id :: evs)
          | None => Ok (s, [])
          end
      | _ => Ok (s, [])
      end
  | FGone id =>
      match fobj_get (fi_objs s) id with
      | Some o =>
          match fo_close o with
          | CNot =>
              if fo_closed o && fo_cb o
              then Ok (set_freg (set_fobj s id (at_close o CTimer)) (filter (fun i => negb (i =? id)) (fi_reg s)), [XGone id])
              else Ok (s, [])
          | _ => Ok (s, [])
          end
      | None => Ok (s, [])
      end
  | FRemove id =>
      match fobj_get (fi_objs s) id with
      | Some o =>
          match fo_close o with
          | CTimer => do t <- tstep (fi_tc s) (TRemove id) ; Ok (set_tc (set_fobj s id (at_close o CHandler)) t, [XRemove id])
          | _ => Ok (s, [])
          end
      | None => Ok (s, [])
      end
  | FClosed id =>
      match fobj_get (fi_objs s) id with
      | Some o => match fo_close o with CHandler => Ok (set_fobj s id (at_close o COver), [XClosed id]) | _ => Ok (s, []) end
      | None => Ok (s, [])
      end
  | FHandler msgid h =>
      Ok (Fine (fi_auto s) ((msgid, h) :: fi_handlers s) (fi_tc s) (fi_objs s) (fi_reg s) (fi_tick s) (fi_casts s) (fi_toks s), [XHandler msgid h])
  end.

(** A history and everything that happened, in order *)
Fixpoint frun (s : fine) (ops : list fop) : res (fine * list fevent) :=
  match ops with
  | [] => Ok (s, [])
  | op :: r => do (s1, e1) <- fstep s op ; do (s2, e2) <- frun s1 r ; Ok (s2, e1 ++ e2)
  end.
(** NewServer, server.go:41-59, with keepalive [ka] *)
Definition fine_init (auto : bool) (ka : Z) : fine := Fine auto [] (tinit ka) [] [] (TKeys []) [] 0.
