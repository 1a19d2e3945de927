(** What one connection notices of the whole process, goroutine by goroutine, and the histories in which it is the only one. *)
From Verif Require Import Base Bits Env EntTerm EntPlat Registry Message Codec Timer Session Multipart Server Host Overlap Fine World.
From Verif Require Import SpecMsg SpecStream SpecMulti SpecServer SpecFine SpecOverlap SpecHost SpecWorld.

(** The session that an effect belongs to; checks of the timer, registrations of handlers, and the beginning and the count of a Broadcast belong to none. *)
Definition whose (ev : fevent) : option Z :=
  match ev with
  | XConnect i | XClock i _ | XDel i | XIns i | XAddCb i _ | XRecv i _ | XStored i _ | XMerged i _ | XIcc i _ | XTake i _ _ | XLoad i _ _
  | XHandle i _ _ | XReturn i | XReply i _ _ | XReplied i _ | XFail i | XStart i _ _ _ | XNext i _ _ | XWire i _ _ | XAdd i _ | XCastTo _ i _ _
  | XLook i _ | XShut i | XGet i _ | XTimeout i | XGone i | XRemove i | XClosed i => Some i
  | XCast _ _ _ | XCount _ _ | XTick _ _ | XHandler _ _ => None
  end.
(** What a connection notices of an effect: everything of its own, of a check of the timer whether it is called back itself, registrations *)
Definition felt (id : Z) (ev : fevent) : list fevent :=
  match ev with
  | XTick now keys => [XTick now (filter (Z.eqb id) keys)]
  | XHandler _ _ => [ev]
  | XCast _ _ _ | XCount _ _ => []
  | _ => match whose ev with Some i => if i =? id then [ev] else [] | None => [] end
  end.
Definition felt_by (id : Z) (ev : wevent) : list wevent :=
  match ev with
  | WFine e => map WFine (felt id e)
  | WIn i _ | WOut i _ | WReadErr i | WSendErr i _ => if i =? id then [ev] else []
  end.
(** Everything a connection notices, in order: the bytes that arrive and are written are among it. *)
Definition life (id : Z) (evs : list wevent) : list wevent := flat_map (felt_by id) evs.

(** The connection a step is one of; [FCast], [FCastEnd], [FTick], [FGet], [FTimeout] and [FHandler] belong to the server as a whole. *)
Definition fstep_of (op : fop) : option Z :=
  match op with
  | FConnect i | FClock i _ | FDel i | FIns i | FAddCb i | FRecv i _ | FStored i _ | FMerged i _ | FFail i | FIcc i | FTake i | FLoad i | FRun i | FReturn i
  | FReply i | FStart i _ _ | FNext i _ | FWire i _ | FAdd i _ | FCastNext _ i | FLook i | FShut i | FQueue i _ | FGone i | FRemove i | FClosed i => Some i
  | FCast _ | FCastEnd _ | FTick _ | FGet | FTimeout | FHandler _ _ => None
  end.
Definition step_of (op : wop) : option Z :=
  match op with
  | WDo op => fstep_of op
  | WArrive i _ | WTurn i _ | WFile i | WTake i | WWrite i _ _ | WQuit i | WKey i _ => Some i
  end.
Definition nobody_else (id : Z) (ops : list wop) : Prop := Forall (fun o => step_of o = Some id \/ step_of o = None) ops.
(** What can happen when no other connection is ever made *)
Definition occurs_alone (env : Env) (key : option Z) (merging : bool) (ka : Z) (f : fs) (id : Z) (evs : list wevent) : Prop :=
  key_ok env key /\ exists ops w, wlegal ops /\ nobody_else id ops /\ wrun env key (world_init merging ka f) ops = Ok (w, evs).
(** No upload of this connection is received on another one too. *)
Definition own_uploads (merging : bool) (id : Z) (evs : list wevent) : Prop :=
  forall i p q, i <> id -> In p (packets merging id (inside evs)) -> In q (packets merging i (inside evs)) -> same_upload (pk_up p) (pk_up q) = false.
