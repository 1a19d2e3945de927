(** What happens in the whole process, read off the events alone. *)
From Verif Require Import Base Env Registry Message Codec Session Multipart Server Host Overlap Fine World.
From Verif Require Import SpecMsg SpecStream SpecMulti SpecServer SpecFine SpecOverlap SpecHost.

(** Everything that can happen in a process with these files: any number of goroutines in any interleaving, any bytes on any connections *)
Definition wlegal (ops : list wop) : Prop := Forall (fun o => match o with WArrive _ d => bytes_ok d | _ => True end) ops.
Definition occurs (env : Env) (key : option Z) (merging : bool) (ka : Z) (f : fs) (evs : list wevent) : Prop :=
  key_ok env key /\ exists ops w, wlegal ops /\ wrun env key (world_init merging ka f) ops = Ok (w, evs).
(** What the server does *)
Definition inside (evs : list wevent) : list fevent := flat_map (fun ev => match ev with WFine e => [e] | _ => [] end) evs.

(** Bytes that arrived on a session, and the messages its goroutine received *)
Definition came (id : Z) (evs : list wevent) : bytes := flat_map (fun ev => match ev with WIn i d => if i =? id then d else [] | _ => [] end) evs.
Definition got_by (id : Z) (evs : list fevent) : list message := flat_map (fun ev => match ev with XRecv i m => if i =? id then [m] else [] | _ => [] end) evs.
(** Messages that link took on a session, and what was written to its connection, call by call *)
Definition handed (id : Z) (evs : list fevent) : list message := flat_map (fun ev => match ev with XWire i _ (Some m) => if i =? id then [m] else [] | _ => [] end) evs.
Definition wrote (id : Z) (evs : list wevent) : list bytes := flat_map (fun ev => match ev with WOut i d => if i =? id then [d] else [] | _ => [] end) evs.

(** ** Uploads *)
(** The packets of uploads received on a session *)
Definition packets (merging : bool) (id : Z) (evs : list fevent) : list packet :=
  flat_map (fun m => match part_of merging m with Some (mf, sq, data) => [Packet mf sq data] | None => [] end) (got_by id evs).
(** What became of them *)
Definition results (id : Z) (evs : list fevent) : list fevent :=
  filter (fun ev => match ev with XStored i _ | XMerged i _ => i =? id | _ => false end) evs.
Definition shown (id : Z) (o : outcome) : list fevent :=
  match o with
  | OFail => [XStored id false]
  | OKept => [XStored id true; XMerged id None]
  | OWhole c => [XStored id true; XMerged id (Some c)]
  end.
(** No upload is received on two sessions. *)
Definition separate (merging : bool) (evs : list fevent) : Prop :=
  forall i j p q, i <> j -> In p (packets merging i evs) -> In q (packets merging j evs) -> same_upload (pk_up p) (pk_up q) = false.

(** Why the goroutine of a session ends: what arrived says so, it is too long, a read fails, or the session is closed and everything
    has been read. *)
Definition ends_because (env : Env) (key : option Z) (id : Z) (a : list wevent) : Prop :=
  (exists e, says env key (came id a) = (got_by id (inside a), GotErr e)) \/
  ~ manageable (came id a) \/
  (exists a', a = a' ++ [WReadErr id]) \/
  (In (XShut id) (inside a) /\ says env key (came id a) = (got_by id (inside a), Waiting)).
(** The application passes an entity to Send, Request or Broadcast for a session. *)
Definition passed (id : Z) (e : entity) (evs : list fevent) : Prop :=
  exists tok, (exists cb, In (XStart id tok cb e) evs) \/ exists b, In (XCastTo b id tok e) evs.

(** ** Coming to rest *)
(** Steps that need nothing from outside: handlers and callbacks return, reads give what there is, writes succeed. *)
Definition wself (op : wop) : bool :=
  match op with
  | WDo op => by_itself op
  | WTurn _ (Avail _) | WFile _ | WTake _ | WWrite _ _ None | WQuit _ => true
  | _ => false
  end.
(** Everything is done: the goroutines of the server have nothing left (C124), every session has ended or is open and has received all that its bytes say,
    every message that was taken is written unless the session is closed, every packet has been dealt with. *)
Record completed (env : Env) (key : option Z) (merging : bool) (f : fs) (evs : list wevent) : Prop := {
  cp_settled : settled merging (inside evs);
  cp_received : forall id, In (XConnect id) (inside evs) ->
    In (XFail id) (inside evs) \/ (~ In (XShut id) (inside evs) /\ says env key (came id evs) = (got_by id (inside evs), Waiting));
  cp_written : forall id, In (XShut id) (inside evs) \/ Forall2 (frame_of env) (handed id (inside evs)) (wrote id evs);
  cp_uploads : fs_ok f -> separate merging (inside evs) -> forall id,
    exists f' os, in_turn f (packets merging id (inside evs)) f' os /\ results id (inside evs) = flat_map (shown id) os }.

(** ** Files *)
(** A packet is in its file; there is more than it only if the file is being written by another session. *)
Definition on_disk (f : fs) (p : packet) : Prop :=
  exists d rest, alist_get (fs_dirs f) (root_dir (pk_up p)) = Some d /\ alist_get d (part_name (pk_up p) (pk_seq p)) = Some (pk_data p ++ rest).
