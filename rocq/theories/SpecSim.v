(** The histories of Server.v as histories of goroutines (Fine.v): what can be seen of both. *)
From Verif Require Import Base Env EntTerm EntPlat Registry Message Timer Session Multipart Server Fine.
From Verif Require Import SpecSession SpecTimer SpecServer SpecFine.

(** What can be seen: a connection, the registration of its close callback, a message that arrives, a tick, calls of
    Broadcast, Send, Request (with the name of its callback) and AddHandler; and the effects of Server.v *)
Inductive sight :=
| LConnect (id : Z)
| LAddCb (id : Z)
| LMessage (id : Z) (m : message)
| LTick (now : Z)
| LBroadcast (e : entity)
| LSend (id : Z) (e : entity)
| LRequest (id name : Z) (e : entity)
| LHandler (msgid h : Z)
| LEffect (ev : sv_event).
(** ... of an operation of Server.v with its effects *)
Definition sight_of_op (op : sv_op) : list sight :=
  match op with
  | OConnect id _ => [LConnect id]
  | OAddCb id => [LAddCb id]
  | ODeliver id _ m => [LMessage id m]
  | OTick now => [LTick now]
  | OBroadcast e => [LBroadcast e]
  | OSendTo id e => [LSend id e]
  | ORequest id tok e => [LRequest id tok e]
  | OAddHandler i h => [LHandler i h]
  | OClose _ | ORunClose _ | OQueue _ _ => []
  end.
Definition sights (tr : trace) : list sight := flat_map (fun x => sight_of_op (fst x) ++ map LEffect (snd x)) tr.
(** ... of an event of Fine.v, where callbacks have numbers and [name] gives their names *)
Definition sight_of (name : Z -> Z) (ev : fevent) : list sight :=
  match ev with
  | XConnect id => [LConnect id]
  | XAddCb id _ => [LAddCb id]
  | XRecv id m => [LMessage id m]
  | XTick now _ => [LTick now]
  | XCast _ e _ => [LBroadcast e]
  | XStart id tok cb e => [if cb then LRequest id (name tok) e else LSend id e]
  | XHandler i h => [LHandler i h]
  | XClock id now => [LEffect (SvRefresh id now)]
  | XTake id m (Some tok) => [LEffect (SvAnswer id (name tok) m)]
  | XHandle id h m => [LEffect (SvHandle id h m)]
  | XWire id _ (Some m) => [LEffect (SvSend id m)]
  | XShut id => [LEffect (SvShut id)]
  | XClosed id => [LEffect (SvClosed id)]
  | XCount _ n => [LEffect (SvCount n)]
  | _ => []
  end.
(** A history in which every session is accepted once, gets its close callback once, and then receives messages *)
Definition orderly (ops : list sv_op) : Prop := forall pre o post, ops = pre ++ o :: post ->
  match o with
  | OConnect id _ => ~ In id (connects pre)
  | OAddCb id => In id (connects pre) /\ ~ In (OAddCb id) pre
  | ODeliver id _ m => In (OAddCb id) pre /\ received m
  | OSendTo id _ | ORequest id _ _ => In id (connects pre)
  | _ => True
  end.
