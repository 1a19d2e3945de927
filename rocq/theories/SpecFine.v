(** What goroutines of a server do, read off the events alone. *)
From Coq Require Import Permutation.
From Verif Require Import Base Env EntTerm EntPlat Registry Message Timer Session Server Fine.
From Verif Require Import SpecSession SpecTimer SpecServer.

(** Everything that can happen in a server that merges packets or not, with keepalive [ka]: any number of
    goroutines in any interleaving; messages are as they come from the wire (C67, C29). *)
Definition fine_received (ops : list fop) : Prop := Forall (fun o => match o with FRecv _ m => received m | _ => True end) ops.
Definition happens (merging : bool) (ka : Z) (evs : list fevent) : Prop :=
  exists ops st, fine_received ops /\ frun (fine_init merging ka) ops = Ok (st, evs).

(** ** The read timer *)
(** Clock readings of the Updates and the deadlines in force: an Update takes the deadline away and then sets
    the one of its clock reading; the close callback and the check take it away. *)
Definition due_event (ka : Z) (s : (Z -> Z) * dls) (ev : fevent) : (Z -> Z) * dls :=
  match ev with
  | XClock id u => ((fun x => if x =? id then u else fst s x), snd s)
  | XDel id | XRemove id => (fst s, put (snd s) id None)
  | XIns id => (fst s, put (snd s) id (Some (wrapped (fst s id) ka)))
  | XTick now _ => (fst s, without_expired (snd s) now)
  | _ => s
  end.
Definition due (ka : Z) (evs : list fevent) : dls := snd (fold_left (due_event ka) evs (fun _ => 0, none_due)).
(** A completed Update of a session: clock reading, Remove, insertion *)
Definition refreshes (id u : Z) (a : list fevent) : Prop :=
  exists a1 a2 a3, a = a1 ++ XClock id u :: a2 ++ XDel id :: a3 ++ [XIns id] /\
    (forall v, ~ In (XClock id v) (a2 ++ a3)) /\ ~ In (XIns id) (a2 ++ a3).
(** The goroutine of the timer calls back with the keys of one check, in order. *)
Definition of_timer (ev : fevent) : bool := match ev with XTick _ _ | XGet _ _ | XTimeout _ => true | _ => false end.
Definition calls_back (x : Z * bool) : list fevent := XGet (fst x) (snd x) :: (if snd x then [XTimeout (fst x)] else []).
Definition a_check (x : Z * list (Z * bool)) : list fevent := XTick (fst x) (map fst (snd x)) :: flat_map calls_back (snd x).
Definition is_tick (ev : fevent) : bool := match ev with XTick _ _ => true | _ => false end.

(** ** Registration and closing *)
Definition accepted (evs : list fevent) (id : Z) : bool := existsb (fun ev => match ev with XConnect i => i =? id | _ => false end) evs.
Definition gone (evs : list fevent) (id : Z) : bool := existsb (fun ev => match ev with XGone i => i =? id | _ => false end) evs.
Definition here (evs : list fevent) (id : Z) : bool := accepted evs id && negb (gone evs id).

(** ** The goroutine of a session *)
Definition own (id : Z) (ev : fevent) : bool :=
  match ev with
  | XConnect i | XClock i _ | XDel i | XIns i | XAddCb i _ | XRecv i _ | XStored i _ | XMerged i _ | XIcc i _ | XTake i _ _ | XLoad i _ _
  | XHandle i _ _ | XReturn i | XReply i _ _ | XReplied i _ | XFail i => i =? id
  | _ => false
  end.
Definition opening (id u : Z) (ok : bool) : list fevent := [XConnect id; XClock id u; XDel id; XIns id; XAddCb id ok].
(** The handler registered last for a message ID *)
Definition handler_now (evs : list fevent) (msgid : Z) : option Z :=
  fold_left (fun acc ev => match ev with XHandler i h => if i =? msgid then Some h else acc | _ => acc end) evs None.
(** A message is passed on: the callback it answers, then the handler. *)
Definition passed (id : Z) (m : message) (evs : list fevent) : Prop :=
  exists cb h u, evs = XIcc id m :: XTake id m cb :: (match cb with Some _ => [XReturn id] | None => [] end) ++ XLoad id m h ::
    match h with Some n => [XClock id u; XDel id; XIns id; XHandle id n m; XReturn id] | None => [] end.
Definition answer_with (id : Z) (m : message) (result : Z) (evs : list fevent) : Prop :=
  exists tok, evs = [XReply id tok (response m result); XReplied id tok].
(** What the goroutine does with one message.  A packet of an upload is stored and answered; if the upload is whole then, it is passed on. *)
Definition turn (merging : bool) (id : Z) (evs : list fevent) : Prop :=
  exists m rest, evs = XRecv id m :: rest /\
  if has_body m then
    match part_of merging m with
    | None => passed id m rest
    | Some _ =>
        (exists r, rest = XStored id false :: r /\ answer_with id m 1 r) \/
        (exists r, rest = XStored id true :: r ++ [XMerged id None] /\ answer_with id m 0 r) \/
        (exists r c r', rest = XStored id true :: r ++ XMerged id (Some c) :: r' /\ answer_with id m 0 r /\ passed id (with_data m c) r')
    end
  else answer_with id m 3 rest.

(** ** Calls of Send, Reply and Request, on any session *)
Definition begun (ev : fevent) : list (Z * Z * bool * entity) :=
  match ev with
  | XStart id tok cb e => [(id, tok, cb, e)]
  | XReply id tok e | XCastTo _ id tok e => [(id, tok, false, e)]
  | _ => []
  end.
Definition names (evs : list fevent) : list Z := map (fun x => snd (fst (fst x))) (flat_map begun evs).
(** Serial numbers drawn on a session *)
Definition numbered (id : Z) (evs : list fevent) : list Z := flat_map (fun ev => match ev with XNext i _ n => if i =? id then [n] else [] | _ => [] end) evs.
(** The terminal number a session was told last *)
Definition told_last (id : Z) (evs : list fevent) : Z :=
  fold_left (fun acc ev => match ev with XIcc i m => if (i =? id) && (0 <? h_icc (m_hdr m)) then h_icc (m_hdr m) else acc | _ => acc end) evs 0.
(** The entity of a call and the number it drew *)
Definition entity_of (id : Z) (evs : list fevent) (tok : Z) : option entity :=
  match find (fun x => (fst (fst (fst x)) =? id) && (snd (fst (fst x)) =? tok)) (flat_map begun evs) with Some (_, _, _, e) => Some e | None => None end.
Definition number_of (id : Z) (evs : list fevent) (tok : Z) : option Z :=
  match find (fun x => fst x =? tok) (flat_map (fun ev => match ev with XNext i t n => if i =? id then [(t, n)] else [] | _ => [] end) evs) with Some (_, n) => Some n | None => None end.
(** Requests waiting on a session: a request waits once it is registered, in place of any other one with the
    same message ID, until its callback runs. *)
Fixpoint waits (id : Z) (past evs : list fevent) (w : list request) : list request :=
  match evs with
  | [] => w
  | ev :: r =>
      waits id (past ++ [ev]) r
        (match ev with
         | XAdd i tok =>
             if i =? id then
               match entity_of id past tok, number_of id past tok with
               | Some e, Some n => filter (fun x => negb (rq_msgid x =? entity_id e)) w ++ [Request (entity_id e) n tok]
               | _, _ => w
               end
             else w
         | XTake i _ (Some tok) => if i =? id then filter (fun x => negb (rq_tok x =? tok)) w else w
         | _ => w
         end)
  end.
Definition pending (id : Z) (evs : list fevent) : list request := waits id [] evs [].

(** ** Broadcast *)
Definition cast_calls (b : Z) (evs : list fevent) : list (Z * Z * entity) :=
  flat_map (fun ev => match ev with XCastTo b' id tok e => if b' =? b then [(id, tok, e)] else [] | _ => [] end) evs.
Definition taken_by_link (evs : list fevent) (tok : Z) : bool := existsb (fun ev => match ev with XWire _ t (Some _) => t =? tok | _ => false end) evs.

(** ** Everything gets done *)
(** Steps that goroutines take once they are started; handlers and callbacks return.  The others come from outside: connections,
    messages, calls of the application, ticks. *)
Definition by_itself (op : fop) : bool :=
  match op with
  | FConnect _ | FRecv _ _ | FFail _ | FStart _ _ _ | FCast _ | FLook _ | FShut _ | FQueue _ _ | FTick _ | FHandler _ _ => false
  | _ => true
  end.
(** Nothing is left to be done: every call has returned, every request whose message was taken is registered, every Broadcast has
    returned, the timer has called back for all keys, every session has done its messages, every close callback has run. *)
Record settled (merging : bool) (evs : list fevent) : Prop := {
  se_calls : forall id tok cb e, In (id, tok, cb, e) (flat_map begun evs) -> exists r, In (XWire id tok r) evs /\ (cb = true -> r = None \/ In (XAdd id tok) evs);
  se_casts : forall b e ids, In (XCast b e ids) evs -> exists n, In (XCount b n) evs;
  se_timer : exists groups, filter of_timer evs = flat_map a_check groups;
  se_sessions : forall id, In (XConnect id) evs -> exists u ok turns tail,
    filter (own id) evs = opening id u ok ++ concat turns ++ tail /\ Forall (turn merging id) turns /\ (tail = [] \/ tail = [XFail id]);
  se_closed : forall id, In (XAddCb id true) evs -> In (XShut id) evs -> In (XClosed id) evs }.
