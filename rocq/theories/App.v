(** The programs in example/: a platform built on the package (example/server) and a
    terminal (example/client).

    Simplifications: reading the test keys (GetTestPrivateKey) is left out, a server
    has some key or none; what the programs print is left out, except that the code
    computing it may panic; SetPublicKey is left out, since no message sent through
    a Session is encrypted (C25). *)
From Verif Require Import Base Bits Decimal GoTime Env EntTerm EntPlat Registry Message Timer Session Multipart Server.

(** ** example/server/server.go *)

(** What a handler does to its session before it returns or panics: Session.Reply to
    the message, Session.Send, Session.Request with the callback of server.go:57-62 *)
Inductive act := DoReply (result : Z) | DoSend (e : entity) | DoRequest (e : entity).
(** A handler: what it does, and whether it ends in a panic *)
Definition outcome := (list act * bool)%type.

(** T808_0x8100_ResultSuccess, protocol/t808_0x8100.go:8, as a Result: 0 *)
Definition app_success : Z := 0.
(** handleAuthentication, server.go:52-63 *)
Definition on_auth (m : message) : outcome := ([DoReply app_success; DoRequest E8104], false).
(** handleReportLocation, server.go:66-93: the type assertion at 68, ext.ID() of a nil
    item at 82, and the reply at the end *)
Definition on_location (m : message) : outcome :=
  match m_body m with
  | BEnt (E0200 e) => if forallb (fun x : option extra => match x with Some _ => true | None => false end) (p_extras e)
                      then ([DoReply app_success], false) else ([], true)
  | _ => ([], true)
  end.
(** handleUploadMediaPacket, server.go:96-107: the type assertion at 97, the call of
    Read on a nil Packet at 101 (its error is ignored) *)
Definition on_media (m : message) : outcome :=
  match m_body m with
  | BEnt (E0801 e) => match a0801_packet e with
                      | Some _ => ([DoSend (E8800 (T8800 (a0800_media (a0801_head e)) []))], false)
                      | None => ([], true)
                      end
  | _ => ([], true)
  end.
(** handleUploadRsaPublicKey, server.go:110-125; [key] is the server's own key *)
Definition on_key (key : option t0a00) (m : message) : outcome :=
  match m_body m with
  | BEnt (E0A00 e) => (DoReply app_success :: match key with Some k => [DoSend (E8A00 k)] | None => [] end, false)
  | _ => ([], true)
  end.
(** The callback of the query, server.go:57-62: the type assertion at 58, param.ID() of a nil parameter *)
Definition on_params (answer : message) : outcome :=
  match m_body answer with
  | BEnt (E0104 e) => ([], negb (forallb (fun x : option param => match x with Some _ => true | None => false end) (a0104_params e)))
  | _ => ([], true)
  end.
(** The handlers, named 1 to 4 as they are added, server.go:139-142 *)
Definition handler (key : option t0a00) (h : Z) (m : message) : outcome :=
  if h =? 1 then on_auth m else if h =? 2 then on_location m else if h =? 3 then on_media m else on_key key m.
(** server.go:139-142 *)
Definition app_handlers : list sv_op := [OAddHandler 0x0102 1; OAddHandler 0x0200 2; OAddHandler 0x0801 3; OAddHandler 0x0A00 4].
(** The options, server.go:133-138 *)
Definition app_options : options := Options 60 true (Some 1024).

(** The call of the package that an action is, session.go:70-112; [tok] names the request *)
Definition act_op (id tok : Z) (m : message) (a : act) : sv_op :=
  match a with
  | DoReply r => OSendTo id (reply_entity m r)
  | DoSend e => OSendTo id e
  | DoRequest e => ORequest id tok e
  end.
(** What a session's goroutine goes on to do after an effect: run the handler, server.go:191 *)
Definition reaction (key : option t0a00) (tok : Z) (ev : sv_event) : list sv_op :=
  match ev with SvHandle id h m => map (act_op id tok m) (fst (handler key h m)) | _ => [] end.

(** The program: the server, the calls that goroutines of sessions have still to make
    inside a handler, and the name of the next request *)
Record program := App { ap_sv : server; ap_todo : Z -> list sv_op; ap_next : Z }.
(** assignment to the calls of one goroutine (bookkeeping of the schedule, no code) *)
Definition set_todo (f : Z -> list sv_op) (id : Z) (l : list sv_op) : Z -> list sv_op := fun x => if x =? id then l else f x.
(** main, server.go:127-144: the server before it runs *)
Definition app_start (sv : server) : res (server * list (sv_op * list sv_event)) := sv_run sv app_handlers.

(** Steps of the program: an event from outside (a connection, a message, a tick, ...),
    which the program does not make itself, or the next call of a goroutine in a handler *)
Inductive app_op := ANet (op : sv_op) | AGo (id : Z).
(** One step.  A message is only received when the goroutine of its session is not in a handler, session_handler.go:34-112. *)
Definition app_step (key : option t0a00) (a : program) (o : app_op) : res (program * list (sv_op * list sv_event)) :=
  match o with
  | ANet (ODeliver id now m) =>
      match ap_todo a id with
      | [] =>
          do (sv, evs) <- sv_step (ap_sv a) (ODeliver id now m) ;
          Ok (App sv (set_todo (ap_todo a) id (flat_map (reaction key (ap_next a)) evs)) (ap_next a + 1), [(ODeliver id now m, evs)])
      | _ => Ok (a, [])
      end
  | ANet (OBroadcast _) | ANet (OSendTo _ _) | ANet (ORequest _ _ _) | ANet (OAddHandler _ _) => Ok (a, [])
  | ANet op => do (sv, evs) <- sv_step (ap_sv a) op ; Ok (App sv (ap_todo a) (ap_next a), [(op, evs)])
  | AGo id =>
      match ap_todo a id with
      | [] => Ok (a, [])
      | op :: t => do (sv, evs) <- sv_step (ap_sv a) op ; Ok (App sv (set_todo (ap_todo a) id t) (ap_next a), [(op, evs)])
      end
  end.
(** A history of the program: the state reached, and the calls of the package with their effects *)
Fixpoint app_run (key : option t0a00) (a : program) (ops : list app_op) : res (program * list (sv_op * list sv_event)) :=
  match ops with
  | [] => Ok (a, [])
  | o :: t =>
      do (a1, e1) <- app_step key a o ;
      do (a2, e2) <- app_run key a1 t ;
      Ok (a2, e1 ++ e2)
  end.

(** ** example/client/client.go *)

(** The terminal number, client.go:75, 93, 118, 156, 220 *)
Definition my_icc : Z := 19901234567.
(** The headers, client.go:74-77 and the like; MsgID and Property are set by Encode *)
Definition my_header (serial : Z) (packet : option (Z * Z)) : header := Header 0 0 my_icc serial packet.
(** The position, client.go:96-105 and 171-180; [now] is time.Now().Unix() *)
Definition my_position (env : Env) (now : Z) : t0200 :=
  T0200 2342 0 (Dec 23562345 (-6)) (Dec (-128323123) (-6)) 2345 160 72 (GoTime now 0 (tz_off env)) [].
(** The authentication, the position and the key, client.go:73-131 *)
Definition my_greeting (env : Env) (now : Z) (key : t0a00) : list message :=
  [Message (my_header 1 None) (BEnt (E0102 (T0102 [49; 50; 51; 52; 53; 54; 55; 56])));
   Message (my_header 2 None) (BEnt (E0200 (my_position env now)));
   Message (my_header 3 None) (BEnt (E0A00 key))].
(** One packet of the media file, client.go:155-183 *)
Definition my_packet (env : Env) (now sum sq : Z) (data : bytes) : message :=
  Message (my_header 3 (Some (sum, sq))) (BEnt (E0801 (T0801 (T0800 1024 1 0 13 28) (my_position env now) (Some (Rdr data false))))).
(** a / b rounded up as at client.go:146-153 *)
Definition round_up (a b : Z) : Z := let q := a / b in if 0 <? a mod b then q + 1 else q.
(** The loop of client.go:137-192 from [offset] with [limit] on; the division at 146 panics for 0, the slice at 181 out of range *)
Fixpoint my_packets (fuel : nat) (env : Env) (now : Z) (media : bytes) (offset limit : Z) : res (list message) :=
  match fuel with
  | O => Err ErrFuel
  | S f =>
      if zlen media <=? offset then Ok []
      else
        let limit' := if zlen media <? offset + limit then offset + limit - zlen media else limit in
        if limit' =? 0 then Panic
        else if zlen media <? offset + limit' then Panic
        else
          let sum := round_up (zlen media) limit' in
          let sq := round_up (offset + limit') limit' in
          do l <- my_packets f env now media (offset + limit') limit' ;
          Ok (my_packet env now (u16 sum) (u16 sq) (firstn (Z.to_nat limit') (skipn (Z.to_nat offset) media)) :: l)
  end.
(** The upload, client.go:133-192: 512 bytes at a time, of any file (2048 zero bytes there) *)
Definition my_upload (env : Env) (now : Z) (media : bytes) : res (list message) := my_packets (S (length media)) env now media 0 512.
(** The answer to a message of the platform, client.go:216-246 *)
Definition my_answer (env : Env) (m : message) : option message :=
  if h_id (m_hdr m) =? 33028
  then Some (Message (my_header 1000 None) (BEnt (E0104 (T0104 (h_serial (m_hdr m))
         [Some (set_byte 132 24); Some (set_bytes 272 [1; 2; 3; 4; 5; 6; 7; 8]); Some (set_uint16 49 100); Some (set_uint32 70 64000);
          Some (set_string env 131 [232; 189; 166; 231; 137; 140; 229; 143; 183; 231; 160; 129])]))))
  else None.
