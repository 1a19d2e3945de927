(** What a history of a server means, read off the operations and the observable
    effects; nothing here refers to the state of the server. *)
From Coq Require Import Sorted.
From Verif Require Import Base Env EntTerm EntPlat Registry Message Timer Session Multipart Server SpecSession SpecMulti SpecTimer.

(** A history: operations with their effects, in order *)
Definition trace := list (sv_op * list sv_event).
Definition ops_of (tr : trace) : list sv_op := map fst tr.
Definition effects (tr : trace) : list sv_event := flat_map snd tr.

(** Sessions accepted so far *)
Definition connects (ops : list sv_op) : list Z := flat_map (fun o => match o with OConnect id _ => [id] | _ => [] end) ops.
(** The handler registered last for a message ID *)
Definition handler_of (ops : list sv_op) (msgid : Z) : option Z :=
  fold_left (fun acc o => match o with OAddHandler i h => if i =? msgid then Some h else acc | _ => acc end) ops None.
(** The send queue of a session is full. *)
Definition blocked (ops : list sv_op) (id : Z) : bool :=
  fold_left (fun acc o => match o with
                          | OQueue i b => if i =? id then b else acc
                          | OConnect i _ => if i =? id then false else acc
                          | _ => acc
                          end) ops false.

(** A message as it comes from the wire (C67, C29): fields in range, a packet
    item exactly when the property word says so, a body of the announced type *)
Definition received (m : message) : Prop :=
  let h := m_hdr m in
  is_u16 (h_id h) /\ 1 <= h_icc h < 10 ^ 12 /\ is_u16 (h_serial h) /\
  match h_packet h with Some (sum, sq) => is_u16 sum /\ is_u16 sq /\ Z.testbit (h_prop h) 13 = true | None => Z.testbit (h_prop h) 13 = false end /\
  is_u16 (h_prop h) /\
  match m_body m with
  | BEnt e => entity_id e = h_id h /\
      match e with
      | E0801 x => is_u32 (a0800_media (a0801_head x)) /\ exists data, a0801_packet x = Some (Rdr data false)
      | _ => True
      end
  | BNil => True
  | BNilPtr _ => True
  end.
Definition has_body (m : message) : bool := match m_body m with BEnt _ => true | _ => false end.

(** The calls of Request, by their names *)
Definition asked (ops : list sv_op) : list Z := flat_map (fun o => match o with ORequest _ tok _ => [tok] | _ => [] end) ops.
(** Session IDs and the names of requests are new, and messages arrive on accepted sessions. *)
Definition legal_op (pre : list sv_op) (o : sv_op) : Prop :=
  match o with
  | OConnect id _ => ~ In id (connects pre)
  | ODeliver id _ m => In id (connects pre) /\ received m
  | ORequest _ tok _ => ~ In tok (asked pre)
  | _ => True
  end.
Definition legal (ops : list sv_op) : Prop := forall pre o post, ops = pre ++ o :: post -> legal_op pre o.

(** ** Multipart messages *)

(** A packet that a merging server collects: its upload, number and data *)
Definition part_of (merging : bool) (m : message) : option (mpf * Z * bytes) :=
  match h_packet (m_hdr m), m_body m with
  | Some (sum, sq), BEnt (E0801 e) =>
      if merging then
        Some (Mpf (h_icc (m_hdr m)) (h_id (m_hdr m)) (a0800_media (a0801_head e)) sum, sq,
              match a0801_packet e with Some r => rdr_data r | None => [] end)
      else None
  | _, _ => None
  end.
Definition all_writtenb (h : list mop) (m : mpf) : bool :=
  forallb (fun i => match written h m i with Some _ => true | None => false end) (upto (mp_sum m)).
(** The uploads so far, and the terminal number each session has been told. *)
Record hist := Hist { hi_up : list mop; hi_icc : Z -> Z }.
(** A part completes its upload if it has the last number and nothing is missing. *)
Definition completes (up : list mop) (p : mpf * Z * bytes) : bool :=
  let '(mf, sq, data) := p in (sq =? mp_sum mf) && all_writtenb (up ++ [MWrite mf sq data]) mf.
Definition told (icc : Z -> Z) (id : Z) (m : message) : Z -> Z :=
  fun x => if (x =? id) && (0 <? h_icc (m_hdr m)) then h_icc (m_hdr m) else icc x.
Definition hist_step (merging : bool) (h : hist) (o : sv_op) : hist :=
  match o with
  | ODeliver id _ m =>
      if has_body m then
        match part_of merging m with
        | None => Hist (hi_up h) (told (hi_icc h) id m)
        | Some (mf, sq, data) =>
            if completes (hi_up h) (mf, sq, data)
            then Hist (hi_up h ++ [MWrite mf sq data; MMerge mf]) (told (hi_icc h) id m)
            else Hist (hi_up h ++ [MWrite mf sq data]) (hi_icc h)
        end
      else h
  | OConnect id _ => Hist (hi_up h) (fun x => if x =? id then 0 else hi_icc h x)
  | _ => h
  end.
(** [prior]: the calls made before the server started (files outlive it) *)
Definition history (merging : bool) (prior : list mop) (ops : list sv_op) : hist :=
  fold_left (hist_step merging) ops (Hist prior (fun _ => 0)).
(** A message is passed on as a whole: it has a body and is not a packet that is kept back. *)
Definition passes (merging : bool) (up : list mop) (m : message) : bool :=
  has_body m && match part_of merging m with None => true | Some p => completes up p end.
(** The message with other data *)
Definition with_data (m : message) (data : bytes) : message :=
  match m_body m with
  | BEnt (E0801 e) => Message (m_hdr m) (BEnt (E0801 (T0801 (a0801_head e) (a0801_loc e) (Some (Rdr data false)))))
  | _ => m
  end.

(** ** Closing and timing *)
Definition is_shut (tr : trace) (id : Z) : bool := existsb (fun ev => match ev with SvShut i => i =? id | _ => false end) (effects tr).
Definition is_gone (tr : trace) (id : Z) : bool := existsb (fun ev => match ev with SvClosed i => i =? id | _ => false end) (effects tr).
(** The close callback was registered in time. *)
Definition hooked (tr : trace) (id : Z) : Prop :=
  exists a e b, tr = a ++ (OAddCb id, e) :: b /\ In id (connects (ops_of a)) /\ is_shut a id = false.
(** Read deadlines, with keepalive [ka] *)
Definition dl_event (ka : Z) (f : dls) (ev : sv_event) : dls :=
  match ev with
  | SvRefresh id now => put f id (Some (wrapped now ka))
  | SvClosed id => put f id None
  | _ => f
  end.
Definition dl_step (ka : Z) (f : dls) (x : sv_op * list sv_event) : dls :=
  match x with
  | (OTick now, _) => without_expired f now
  | (_, evs) => fold_left (dl_event ka) evs f
  end.
Definition deadlines (ka : Z) (tr : trace) : dls := fold_left (dl_step ka) tr none_due.

(** Effects of some kind *)
Definition handled (evs : list sv_event) : list sv_event := filter (fun ev => match ev with SvHandle _ _ _ => true | _ => false end) evs.
Definition answered_in (evs : list sv_event) : list sv_event := filter (fun ev => match ev with SvAnswer _ _ _ => true | _ => false end) evs.
Definition sends (evs : list sv_event) : list (Z * message) := flat_map (fun ev => match ev with SvSend id m => [(id, m)] | _ => [] end) evs.

(** Messages sent on a session so far *)
Definition sent_on (tr : trace) (id : Z) : nat := length (filter (fun p => fst p =? id) (sends (effects tr))).
(** Requests waiting for an answer, with their sessions: a request that was sent
    waits, in place of any other one with the same message ID on that session,
    until its callback runs. *)
Definition wait_step (w : list (Z * request)) (x : sv_op * list sv_event) : list (Z * request) :=
  match x with
  | (ORequest _ tok e, [SvSend id m]) =>
      filter (fun p => negb ((fst p =? id) && (rq_msgid (snd p) =? entity_id e))) w ++ [(id, Request (entity_id e) (h_serial (m_hdr m)) tok)]
  | (_, evs) =>
      filter (fun p => negb (existsb (fun ev => match ev with SvAnswer id tok _ => (id =? fst p) && (tok =? rq_tok (snd p)) | _ => false end) evs)) w
  end.
Definition waiting (tr : trace) : list (Z * request) := fold_left wait_step tr [].

(** ** What delivering a message does *)

(** Sending [e] on a session: nothing if it is shut, else one message with the
    next serial number to the terminal number the session was told, or the
    session is shut if its queue is full. *)
Definition sending (merging : bool) (prior : list mop) (tr : trace) (id : Z) (e : entity) (evs : list sv_event) : Prop :=
  if is_shut tr id then evs = []
  else if blocked (ops_of tr) id then evs = [SvShut id]
  else evs = [SvSend id (Message (Header (entity_id e) 0 (hi_icc (history merging prior (ops_of tr)) id) (serial (sent_on tr id)) None) (BEnt e))].
(** The general response to a message *)
Definition response (m : message) (result : Z) : entity := E8001 (T8001 (h_serial (m_hdr m)) (h_id (m_hdr m)) result).
(** A whole message: the callback of a waiting request it answers, then the handler (after a refresh of the timer) *)
Definition dispatching (tr : trace) (id now : Z) (m : message) (evs : list sv_event) : Prop :=
  exists ans,
    (ans = [] /\ (forall r, In (id, r) (waiting tr) -> ~ answers m (rq_serial r)) \/
     exists r, In (id, r) (waiting tr) /\ answers m (rq_serial r) /\ ans = [SvAnswer id (rq_tok r) m]) /\
    evs = ans ++ match handler_of (ops_of tr) (h_id (m_hdr m)) with Some h => [SvRefresh id now; SvHandle id h m] | None => [] end.
Definition delivery (merging : bool) (prior : list mop) (tr : trace) (id now : Z) (m : message) (evs : list sv_event) : Prop :=
  let up := hi_up (history merging prior (ops_of tr)) in
  if has_body m then
    match part_of merging m with
    | None => dispatching tr id now m evs
    | Some (mf, sq, data) =>
        if completes up (mf, sq, data) then
          exists c e1 e2, merged (up ++ [MWrite mf sq data]) mf c /\ evs = e1 ++ e2 /\
            sending merging prior tr id (response m 0) e1 /\ dispatching tr id now (with_data m c) e2
        else sending merging prior tr id (response m 0) evs
    end
  else sending merging prior tr id (response m 3) evs.

(** ** What every operation does *)
Definition connected (tr : trace) (id : Z) : bool := existsb (Z.eqb id) (connects (ops_of tr)).
(** Accepted, and its close callback has not run *)
Definition registered (tr : trace) (id : Z) : bool := connected tr id && negb (is_gone tr id).
Definition open (tr : trace) (id : Z) : bool := connected tr id && negb (is_shut tr id).
Definition shut_if (b : bool) (id : Z) : list sv_event := if b then [SvShut id] else [].
Definition effect (merging : bool) (ka : Z) (prior : list mop) (tr : trace) (op : sv_op) (evs : list sv_event) : Prop :=
  match op with
  | OConnect id now => evs = [SvRefresh id now]
  | ODeliver id now m => delivery merging prior tr id now m evs
  | OClose id => evs = shut_if (open tr id) id
  | ORunClose id => evs = [SvClosed id] /\ hooked tr id /\ is_shut tr id = true /\ is_gone tr id = false \/
                    evs = [] /\ ~ (hooked tr id /\ is_shut tr id = true /\ is_gone tr id = false)
  | OTick now => exists keys, fires (deadlines ka tr) now keys /\ evs = flat_map (fun id => shut_if (registered tr id && open tr id) id) keys
  | OBroadcast e => exists ids blocks, NoDup ids /\ (forall id, In id ids <-> registered tr id = true) /\
                    Forall2 (fun id b => sending merging prior tr id e b) ids blocks /\
                    evs = concat blocks ++ [SvCount (zlen (sends (concat blocks)))]
  | OSendTo id e | ORequest id _ e => if connected tr id then sending merging prior tr id e evs else evs = []
  | OAddCb _ | OAddHandler _ _ | OQueue _ _ => evs = []
  end.
(** The keepalive in seconds that a server uses *)
Definition keepalive (o : options) : Z := if 0 <? opt_keepalive o then opt_keepalive o else 60.
(** A server started after [prior] calls on its multipart files, and a history of it *)
Definition starts (o : options) (prior : list mop) (sv : server) : Prop :=
  exists f outs, Forall mop_ok prior /\ mrun empty_fs [] prior = Ok (f, outs) /\ new_server f o = Ok sv.
Definition runs (o : options) (prior : list mop) (ops : list sv_op) (tr : trace) : Prop :=
  exists sv sv', starts o prior sv /\ legal ops /\ sv_run sv ops = Ok (sv', tr).

(** Clock readings of a history: they do not go back, and sums with the
    keepalive do not leave 64 bits. *)
Definition clock (ops : list sv_op) : list Z :=
  flat_map (fun o => match o with OConnect _ t | ODeliver _ t _ | OTick t => [t] | _ => [] end) ops.
Definition clock_ok (o : options) (ops : list sv_op) : Prop :=
  StronglySorted Z.le (clock ops) /\ Forall ordinary (clock ops) /\ ordinary (keepalive o).
(** The handler calls that a history of whole messages should make *)
Fixpoint dispatched (pre ops : list sv_op) : list sv_event :=
  match ops with
  | [] => []
  | o :: t =>
      (match o with
       | ODeliver id _ m =>
           if has_body m then match handler_of pre (h_id (m_hdr m)) with Some h => [SvHandle id h m] | None => [] end else []
       | _ => []
       end) ++ dispatched (pre ++ [o]) t
  end.
(** Runs of the close handler for a session *)
Definition closings (id : Z) (evs : list sv_event) : nat :=
  length (filter (fun ev => match ev with SvClosed i => i =? id | _ => false end) evs).

(** The packets of one upload that arrive in a history: session, message, packet number, data *)
Definition packets (mf : mpf) (ops : list sv_op) : list (Z * message * Z * bytes) :=
  flat_map (fun o => match o with
                     | ODeliver id _ m =>
                         match part_of true m with
                         | Some (mf', sq, data) => if same_upload mf' mf then [(id, m, sq, data)] else []
                         | None => []
                         end
                     | _ => []
                     end) ops.
Definition numbers (ps : list (Z * message * Z * bytes)) : list Z := map (fun p => snd (fst p)) ps.
Definition data_with (ps : list (Z * message * Z * bytes)) (i : Z) : bytes :=
  match find (fun p => snd (fst p) =? i) ps with Some p => snd p | None => [] end.
(** Handler calls for the upload *)
Definition calls_for (mf : mpf) (evs : list sv_event) : list sv_event :=
  filter (fun ev => match ev with
                    | SvHandle _ _ m => match part_of true m with Some (mf', _, _) => same_upload mf' mf | None => false end
                    | _ => false
                    end) evs.
(** Runs of the callback of a request *)
Definition answers_to (tok : Z) (evs : list sv_event) : nat :=
  length (filter (fun ev => match ev with SvAnswer _ t _ => t =? tok | _ => false end) evs).
