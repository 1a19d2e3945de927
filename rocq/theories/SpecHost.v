(** What a history of the whole process means, read off its operations and
    effects; nothing here refers to the state of the process. *)
From Verif Require Import Base Env Registry Message Codec Timer Session Multipart Server Host SpecGeo SpecEntity SpecMsg SpecStream SpecMulti SpecServer.

(** A history: operations with their effects, in order *)
Definition htrace := list (host_op * list host_event).
Definition hops (tr : htrace) : list host_op := map fst tr.
(** The history of the server inside *)
Definition served (evs : list host_event) : trace := flat_map (fun ev => match ev with HSv op es => [(op, es)] | HWire _ _ => [] end) evs.
Definition inner (tr : htrace) : trace := flat_map (fun x => served (snd x)) tr.

(** Sessions accepted and calls of Request so far *)
Definition accepted (ops : list host_op) : list Z := flat_map (fun o => match o with HOp (OConnect id _) => [id] | _ => [] end) ops.
Definition requested (ops : list host_op) : list Z := flat_map (fun o => match o with HOp (ORequest _ tok _) => [tok] | _ => [] end) ops.
(** Session IDs and the names of requests are new; bytes arrive on accepted
    sessions; messages and the state of the channels are not given but follow. *)
Definition hlegal_op (pre : list host_op) (o : host_op) : Prop :=
  match o with
  | HOp (OConnect id _) => ~ In id (accepted pre)
  | HOp (ORequest _ tok _) => ~ In tok (requested pre)
  | HOp (ODeliver _ _ _) | HOp (OQueue _ _) => False
  | HArrive id d => In id (accepted pre) /\ bytes_ok d
  | _ => True
  end.
Definition hlegal (ops : list host_op) : Prop := forall pre o post, ops = pre ++ o :: post -> hlegal_op pre o.
(** What the steps of the process do in the server: its operations are done as
    such, the goroutine of a session delivers messages and closes the session, a
    failing write closes it; all else only records the state of channels. *)
Definition records (ev : host_event) : Prop := exists id b, ev = HSv (OQueue id b) [].
Definition does (op : sv_op) (evs : list host_event) : Prop := exists es q, evs = HSv op es :: q /\ Forall records q.
Definition causes (op : host_op) (evs : list host_event) : Prop :=
  match op with
  | HOp op => does op evs
  | HTurn id now _ => evs = [] \/ does (OClose id) evs \/ exists m, does (ODeliver id now m) evs
  | HTake _ => Forall records evs
  | HWrite id _ _ => evs = [] \/ (exists d, evs = [HWire id d]) \/ does (OClose id) evs
  | _ => evs = []
  end.
(** The entities that the user of the server passes to it for sending *)
Definition handed (ops : list host_op) (e : entity) : Prop :=
  In (HOp (OBroadcast e)) ops \/ exists id, In (HOp (OSendTo id e)) ops \/ exists tok, In (HOp (ORequest id tok e)) ops.

(** ** Receiving *)

(** All bytes that arrived on a session *)
Definition arrived (id : Z) (ops : list host_op) : bytes :=
  concat (map (fun o => match o with HArrive i d => if i =? id then d else [] | _ => [] end) ops).
(** The messages delivered on it, in order *)
Definition delivered (id : Z) (tr : trace) : list message :=
  flat_map (fun x => match x with (ODeliver i _ m, _) => if i =? id then [m] else [] | _ => [] end) tr.
(** What the bytes say: the messages before the first error and how it ends *)
Definition says (env : Env) (key : option Z) (s : bytes) : list message * Codec.received := until_error env key Waiting (SpecStream.runs s).
(** Moves of the goroutine of a session *)
Definition moves (id : Z) (ops : list host_op) : nat :=
  length (filter (fun o => match o with HTurn i _ _ => i =? id | _ => false end) ops).
(** The connection does not fail. *)
Definition unbroken (id : Z) (ops : list host_op) : Prop := forall now e, ~ In (HTurn id now (Broken e)) ops.
Definition is_prefix {A} (a b : list A) : Prop := exists c, b = a ++ c.

(** ** Sending *)

(** The messages sent on a session, in order *)
Definition sent_to (id : Z) (tr : trace) : list message :=
  flat_map (fun p => if fst p =? id then [snd p] else []) (sends (effects tr)).
(** What was written to its connection, call by call *)
Definition writes (id : Z) (evs : list host_event) : list bytes :=
  flat_map (fun ev => match ev with HWire i d => if i =? id then [d] else [] | _ => [] end) evs.
Definition wire (id : Z) (tr : htrace) : list bytes := writes id (flat_map snd tr).
(** The frame of a message in plain text *)
Definition frame_of (env : Env) (m : message) (d : bytes) : Prop := exists m', msg_encode env None 0 m = Ok (d, m').
(** The send loop gets as many chances as the channel and its goroutine hold messages. *)
Definition flush (id : Z) (rnds : list Z) : list host_op := flat_map (fun r => [HTake id; HWrite id r None]) rnds.
(** Sessions whose message to be written cannot be encoded without a crash are a
    matter of the entities sent; [tame] excludes them. *)
Definition tame (env : Env) (m : message) : Prop := msg_encode env None 0 m <> Panic.
(** A process started with a server and no connections, and a history of it *)
Definition hruns (env : Env) (key : option Z) (o : options) (prior : list mop) (ops : list host_op) (h : host) (tr : htrace) : Prop :=
  exists sv, starts o prior sv /\ key_ok env key /\ hlegal ops /\ host_run env key (Host sv []) ops = Ok (h, tr).
