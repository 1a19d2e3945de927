(** What one connection notices of a history of the whole process, and the part
    of a history that is left when the other connections are taken away. *)
From Verif Require Import Base Bits Env EntTerm EntPlat Registry Message Codec Timer Session Multipart Server Host SpecGeo SpecEntity SpecMsg SpecStream SpecSession SpecMulti SpecTimer SpecServer SpecHost.

(** The session that an effect belongs to; the count that Broadcast returns belongs to none *)
Definition owner (ev : sv_event) : option Z :=
  match ev with
  | SvSend i _ | SvAnswer i _ _ | SvHandle i _ _ | SvRefresh i _ | SvShut i | SvClosed i => Some i
  | SvCount _ => None
  end.
Definition owned (id : Z) (ev : sv_event) : bool := match owner ev with Some i => i =? id | None => false end.
(** What can be noticed: a message taken from the connection, an effect of the server, bytes written to it *)
Inductive seen := Got (now : Z) (m : message) | Did (ev : sv_event) | Wrote (d : bytes).
Definition notice (id : Z) (ev : host_event) : list seen :=
  match ev with
  | HSv op evs => match op with ODeliver i now m => if i =? id then [Got now m] else [] | _ => [] end ++ map Did (filter (owned id) evs)
  | HWire i d => if i =? id then [Wrote d] else []
  end.
Definition experience (id : Z) (tr : htrace) : list seen := flat_map (notice id) (flat_map snd tr).

(** The operations of a connection and those of the server as a whole *)
Definition sv_concerns (id : Z) (o : sv_op) : bool :=
  match o with
  | OConnect i _ | OAddCb i | ODeliver i _ _ | OClose i | ORunClose i | OSendTo i _ | ORequest i _ _ | OQueue i _ => i =? id
  | OTick _ | OBroadcast _ | OAddHandler _ _ => true
  end.
Definition concerns (id : Z) (o : host_op) : bool :=
  match o with
  | HOp o => sv_concerns id o
  | HArrive i _ | HTurn i _ _ | HTake i | HWrite i _ _ | HQuit i | HKey i _ => i =? id
  end.
(** The history without the other connections *)
Definition alone (id : Z) (ops : list host_op) : list host_op := filter (concerns id) ops.

(** A packet of an upload was taken from the connection under that terminal number. *)
Definition uploads_as (tr : htrace) (id icc : Z) : Prop :=
  exists now m e, In (ODeliver id now m) (ops_of (inner tr)) /\ Z.testbit (h_prop (m_hdr m)) 13 = true /\ m_body m = BEnt (E0801 e) /\ h_icc (m_hdr m) = icc.
(** No other connection sends packets of uploads_as under a number that this one uses for uploads_as. *)
Definition different_numbers (id : Z) (tr : htrace) : Prop := forall i icc, i <> id -> uploads_as tr id icc -> ~ uploads_as tr i icc.
