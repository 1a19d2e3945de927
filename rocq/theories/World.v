(** The whole process goroutine by goroutine: the goroutines of the server (Fine.v) with the codec of every connection (Codec.v), the sending
    goroutines of link and the file accesses of uploads (Overlap.v).  Messages, the results of storing and merging, errors of
    Receive and the state of the queues are no longer given; they follow from the bytes, the files and the queues.  A panic of
    any goroutine ends the process: neither HandleSession nor the send loop of link recovers.

    What is assumed of github.com/funny/link, and the simplifications, are those of Host.v, Fine.v and Overlap.v; a read of a closed
    session fails once there are no more bytes, and may fail before. *)
From Verif Require Import Base Env EntTerm Registry Message Codec Session Multipart Server Host Overlap Fine.

(** The process: the server, the connections, the files, and for each session the goroutine of HandleSession inside multipart.go *)
Record world := World { wo_fine : fine; wo_conns : list (Z * conn); wo_fs : fs; wo_up : Z -> thread }.
(** Everything that happens: steps of the server, bytes arrive, bytes are written, a read or a call of codec.Send fails *)
Inductive wevent :=
| WFine (ev : fevent)
| WIn (id : Z) (d : bytes)
| WOut (id : Z) (d : bytes)
| WReadErr (id : Z)
| WSendErr (id : Z) (m : message).

(** Assignment to a connection *)
Definition set_wconn (w : world) (id : Z) (c : conn) : world :=
  World (wo_fine w) (conn_set (wo_conns w) id c) (wo_fs w) (wo_up w).
(** The goroutine of a session goes on with the files. *)
Definition set_up (w : world) (id : Z) (f : fs) (t : thread) : world :=
  World (wo_fine w) (wo_conns w) f (fun i => if i =? id then t else wo_up w i).
(** Where the goroutine of a session is *)
Definition pc_of (s : fine) (id : Z) : option gpc := match fobj_get (fi_objs s) id with Some o => Some (fo_pc o) | None => None end.
(** The close flag of a session *)
Definition is_closed (s : fine) (id : Z) : bool := match fobj_get (fi_objs s) id with Some o => fo_closed o | None => false end.

(** A message that link takes goes into the channel of its session. *)
Definition put_in (l : list (Z * conn)) (ev : fevent) : list (Z * conn) :=
  match ev with
  | XWire id _ (Some m) =>
      match conn_get l id with
      | Some c => conn_set l id (with_send c (cn_queue c ++ [m]) (cn_flight c) (cn_sending c))
      | None => l
      end
  | _ => l
  end.
(** The state of the channel as Fine.v sees it *)
Definition queue_now (l : list (Z * conn)) (id : Z) : list fop :=
  match conn_get l id with
  | Some c => [FQueue id (length (cn_queue c) =? queue_size)%nat]
  | None => []
  end.
(** A step of the server, with what it puts into channels *)
Definition act (w : world) (op : fop) : res (world * list wevent) :=
  do (s1, evs) <- fstep (wo_fine w) op ;
  let l := fold_left put_in evs (wo_conns w) in
  do (s2, e2) <- frun s1 (flat_map (fun ev => match ev with XWire id _ (Some _) => queue_now l id | _ => [] end) evs) ;
  Ok (World s2 l (wo_fs w) (wo_up w), map WFine (evs ++ e2)).

(** The packet of a message of an upload, session_handler.go:63-72; none if its data cannot be read *)
Definition packet_of (m : message) : option packet :=
  match m_body m, h_packet (m_hdr m) with
  | BEnt (E0801 e), Some (sum, sq) =>
      match a0801_packet e with
      | Some r => if rdr_fail r then None else Some (Packet (Mpf (h_icc (m_hdr m)) (h_id (m_hdr m)) (a0800_media (a0801_head e)) sum) sq (rdr_data r))
      | None => None
      end
  | _, _ => None
  end.
(** The goroutine begins to store a packet, session_handler.go:74-79. *)
Definition begin_upload (w : world) (id : Z) : world :=
  match pc_of (wo_fine w) id with
  | Some (GStore m) =>
      match packet_of m with
      | Some p => set_up w id (wo_fs w) (Thread [] (TMkdir p) (th_out (wo_up w id)))
      | None => w
      end
  | _ => w
  end.
(** After readFromBuffer: a message (session_handler.go:43), an error (36-40), or reading goes on (protocol.go:111) *)
Definition got (w : world) (id : Z) (c : conn) (r : scan * bytes) : res (world * list wevent) :=
  match r with
  | (ScanMsg m, b) =>
      do (w1, evs) <- act (set_wconn w id (with_recv c (cn_in c) b AtStart)) (FRecv id m) ;
      Ok (begin_upload w1 id, evs)
  | (ScanErr _, b) => act (set_wconn w id (with_recv c (cn_in c) b Left)) (FFail id)
  | (ScanNone, b) => Ok (set_wconn w id (with_recv c (cn_in c) b InRead), [])
  | (ScanPanic, _) => Panic
  end.
(** One move inside Receive, protocol.go:101-133, called by session_handler.go:36 *)
Definition receive (env : Env) (priv : option Z) (w : world) (id : Z) (r : choice) : res (world * list wevent) :=
  match pc_of (wo_fine w) id, conn_get (wo_conns w) id with
  | Some GRecv, Some c =>
      match cn_at c with
      | Left => Ok (w, [])
      | AtStart => got w id c (read_from_buffer env priv (cn_buf c))
      | InRead =>
          match r with
          | Broken _ =>
              do (w1, evs) <- act (set_wconn w id (with_recv c (cn_in c) (cn_buf c) Left)) (FFail id) ;
              Ok (w1, WReadErr id :: evs)
          | Avail k =>
              let n := Nat.max 1 (Nat.min k 128) in
              match firstn n (cn_in c) with
              | [] =>
                  if is_closed (wo_fine w) id then act (set_wconn w id (with_recv c (cn_in c) (cn_buf c) Left)) (FFail id)
                  else Ok (w, [])
              | d =>
                  let b := cn_buf c ++ d in
                  let c' := with_recv c (skipn n (cn_in c)) b InRead in
                  if 65535 <? zlen b then act (set_wconn w id (with_recv c' (cn_in c') b Left)) (FFail id)
                  else got w id c' (read_from_buffer env priv b)
              end
          end
      end
  | _, _ => Ok (w, [])
  end.
(** The content of an upload that was merged *)
Definition content (t : thread) : option bytes := match last (th_out t) OKept with OWhole c => Some c | _ => None end.
(** One access to the files: while the packet is stored (session_handler.go:79-91), while the upload is checked and merged (94-109) *)
Definition access (w : world) (id : Z) : res (world * list wevent) :=
  match pc_of (wo_fine w) id with
  | Some (GStore _) =>
      match th_at (wo_up w id) with
      | TIdle => act w (FStored id false)
      | _ =>
          let '(f, t) := thread_step (wo_fs w) (wo_up w id) in
          match th_at t with
          | TMkdir _ | TTrunc _ | TFill _ => Ok (set_up w id f t, [])
          | TIdle => act (set_up w id f t) (FStored id (match last (th_out t) OKept with OFail => false | _ => true end))
          | _ => act (set_up w id f t) (FStored id true)
          end
      end
  | Some (GMerge _) =>
      match th_at (wo_up w id) with
      | TIdle => act w (FMerged id None)
      | _ =>
          let '(f, t) := thread_step (wo_fs w) (wo_up w id) in
          match th_at t with
          | TIdle => act (set_up w id f t) (FMerged id (content t))
          | _ => Ok (set_up w id f t, [])
          end
      end
  | _ => Ok (w, [])
  end.

(** The send loop of link takes a message out of the channel. *)
Definition wtake (w : world) (id : Z) : res (world * list wevent) :=
  match conn_get (wo_conns w) id with
  | Some c =>
      match cn_sending c, cn_flight c, cn_queue c with
      | true, None, m :: q =>
          let w1 := set_wconn w id (with_send c q (Some m) true) in
          do (s, evs) <- frun (wo_fine w) (queue_now (wo_conns w1) id) ;
          Ok (World s (wo_conns w1) (wo_fs w) (wo_up w), map WFine evs)
      | _, _, _ => Ok (w, [])
      end
  | None => Ok (w, [])
  end.
(** codec.Send, protocol.go:60-98, as [write] of Host.v; the session is closed when it fails. *)
Definition wwrite (env : Env) (w : world) (id rnd : Z) (wr : option goerr) : res (world * list wevent) :=
  match conn_get (wo_conns w) id with
  | Some c =>
      match cn_flight c with
      | Some m =>
          match codec_send env (cn_pub c) rnd wr m with
          | Ok d => Ok (set_wconn w id (with_send c (cn_queue c) None (cn_sending c)), [WOut id d])
          | Err _ =>
              do (w1, evs) <- act (set_wconn w id (with_send c (cn_queue c) None false)) (FShut id) ;
              Ok (w1, WSendErr id m :: evs)
          | Panic => Panic
          end
      | None => Ok (w, [])
      end
  | None => Ok (w, [])
  end.
(** The send loop of a closed session ends. *)
Definition wquit (w : world) (id : Z) : world :=
  match conn_get (wo_conns w) id with
  | Some c =>
      match cn_flight c with
      | None => if is_closed (wo_fine w) id then set_wconn w id (with_send c (cn_queue c) None false) else w
      | Some _ => w
      end
  | None => w
  end.

(** Steps: one of the server, which is not taken if it is one of those that follow from bytes, files and queues ([FConnect] makes the connection too);
    bytes arrive; the goroutine of a session moves inside Receive or accesses a file; the send loop of link; SetPublicKey, session.go:61-67 *)
Inductive wop :=
| WDo (op : fop)
| WArrive (id : Z) (d : bytes)
| WTurn (id : Z) (r : choice)
| WFile (id : Z)
| WTake (id : Z)
| WWrite (id rnd : Z) (wr : option goerr)
| WQuit (id : Z)
| WKey (id : Z) (k : option Z).
(** One step; the citations are those of the functions. *)
Definition wstep (env : Env) (priv : option Z) (w : world) (op : wop) : res (world * list wevent) :=
  match op with
  | WDo (FConnect id) =>
      match conn_get (wo_conns w) id with
      | Some _ => Ok (w, [])
      | None => act (set_wconn w id new_conn) (FConnect id)
      end
  | WDo (FRecv _ _) | WDo (FFail _) | WDo (FStored _ _) | WDo (FMerged _ _) | WDo (FQueue _ _) => Ok (w, [])
  | WDo op => act w op
  | WArrive id d =>
      match conn_get (wo_conns w) id with
      | Some c => Ok (set_wconn w id (with_recv c (cn_in c ++ d) (cn_buf c) (cn_at c)), [WIn id d])
      | None => Ok (w, [])
      end
  | WTurn id r => receive env priv w id r
  | WFile id => access w id
  | WTake id => wtake w id
  | WWrite id rnd wr => wwrite env w id rnd wr
  | WQuit id => Ok (wquit w id, [])
  | WKey id k =>
      match conn_get (wo_conns w) id with
      | Some c => Ok (set_wconn w id (Conn (cn_in c) (cn_buf c) (cn_at c) (cn_queue c) (cn_flight c) (cn_sending c) k), [])
      | None => Ok (w, [])
      end
  end.
(** A history and everything that happened, in order *)
Fixpoint wrun (env : Env) (priv : option Z) (w : world) (ops : list wop) : res (world * list wevent) :=
  match ops with
  | [] => Ok (w, [])
  | op :: r => do (w1, e1) <- wstep env priv w op ; do (w2, e2) <- wrun env priv w1 r ; Ok (w2, e1 ++ e2)
  end.
(** NewServer with the files that are there *)
Definition world_init (auto : bool) (ka : Z) (f : fs) : world := World (fine_init auto ka) [] f (fun _ => Thread [] TIdle []).
