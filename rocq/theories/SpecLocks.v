(** Mutexes, specification. *)
From Verif Require Import Base Timer Session Server Locks.

(** A section in one step: the steps of which the other models consist *)
Definition whole (x : sect) (d : data) : res (data * answer) :=
  match x with
  | SReg id => Ok (put_sessions d (id :: filter (fun i => negb (i =? id)) (da_sessions d)), ANone)
  | SGet id => Ok (d, AFound (mem (da_sessions d) id))
  | SAll => Ok (d, AIds (da_sessions d))
  | SDrop id => Ok (put_sessions d (filter (fun i => negb (i =? id)) (da_sessions d)), ANone)
  | SDel k => do t <- timer_remove (da_timer d) k ; Ok (put_timer d t, ANone)
  | SIns k x => Ok (put_timer d (timer_insert (da_timer d) k x), ANone)
  | STick now => do (t, keys) <- timer_check (da_timer d) now ; Ok (put_timer d t, AKeys keys)
  | SAdd s r => Ok (put_requests d s (add_request (da_requests d s) r), ANone)
  | STake s n => let '(o, l) := take_request (da_requests d s) n in Ok (put_requests d s l, AReq o)
  end.
(** Sections, each of some goroutine and with its answer, one after the other *)
Inductive executes (d : data) : list (nat * sect * answer) -> data -> Prop :=
  | ex_none : executes d [] d
  | ex_more l d1 i x a d2 : executes d l d1 -> whole x d1 = Ok (d2, a) -> executes d (l ++ [(i, x, a)]) d2.
(** What one goroutine has of it *)
Definition share (i : nat) (l : list (nat * sect * answer)) : list (sect * answer) :=
  map (fun e => (snd (fst e), snd e)) (filter (fun e => Nat.eqb (fst (fst e)) i) l).

(** The process from its start *)
Definition lock_runs (seconds : Z) (ops : list lop) (s : lstate) (evs : list levent) : Prop := lrun (linit seconds) ops = Ok (s, evs).
(** The data at the start *)
Definition blank (seconds : Z) : data := ls_data (linit seconds).
(** The order in which mutexes were taken *)
Definition tooks (evs : list levent) : list (nat * sect) := flat_map (fun e => match e with ETook i x => [(i, x)] | _ => [] end) evs.
(** The sections a goroutine has left, with what it found out *)
Definition freed (i : nat) (evs : list levent) : list (sect * answer) :=
  flat_map (fun e => match e with EFree j x a => if Nat.eqb j i then [(x, a)] else [] | _ => [] end) evs.
(** The data behind a mutex are the same *)
Definition agree (m : mutex) (d d' : data) : Prop :=
  match m with
  | Mserver => da_sessions d = da_sessions d'
  | Mtimer => da_timer d = da_timer d'
  | Msession s => da_requests d s = da_requests d' s
  end.

(** A goroutine holds a mutex. *)
Definition holds (s : lstate) (i : nat) (m : mutex) : Prop := ls_held s m = Some i.
(** A goroutine can go on. *)
Definition can_move (s : lstate) (i : nat) : Prop := forall now, exists s' e, lstep s (LMove i now) = Ok (s', e) /\ ls_at s' i <> ls_at s i.
(** A goroutine alone, [n] statements *)
Definition alone_for (i : nat) (now : Z) (n : nat) : list lop := repeat (LMove i now) n.
(** How much there is to go through *)
Definition amount (d : data) (m : mutex) : nat :=
  match m with
  | Mserver => length (da_sessions d)
  | Mtimer => length (tm_q (da_timer d))
  | Msession s => length (da_requests d s)
  end.
(** No calls, only statements of calls in progress *)
Definition only_moves (ops : list lop) : Prop := Forall (fun o => match o with LMove _ _ => True | LCall _ _ => False end) ops.

(** The next statement of a goroutine changes the data behind a mutex. *)
Definition writes (s : lstate) (i : nat) (m : mutex) : Prop := exists now s' e, lstep s (LMove i now) = Ok (s', e) /\ ~ agree m (ls_data s) (ls_data s').
(** What it does depends on them: with others there it would not go on in the same way, or leave other things behind elsewhere. *)
Definition reads (s : lstate) (i : nat) (m : mutex) : Prop :=
  exists now d s1 e1, (forall m', m' <> m -> agree m' (ls_data s) d) /\ da_seconds d = da_seconds (ls_data s) /\
    lstep s (LMove i now) = Ok (s1, e1) /\ ~ exists s2, lstep (set_data s d) (LMove i now) = Ok (s2, e1) /\ ls_at s2 i = ls_at s1 i /\ forall m', m' <> m -> agree m' (ls_data s1) (ls_data s2).
(** It uses them. *)
Definition uses (s : lstate) (i : nat) (m : mutex) : Prop := writes s i m \/ reads s i m.
(** A mutex is taken again only after whoever took it has left the section. *)
Definition exclusive (evs : list levent) : Prop :=
  forall e1 i x e2 j y e3, evs = e1 ++ ETook i x :: e2 ++ ETook j y :: e3 -> guard x = guard y -> exists a, In (EFree i x a) e2.
(** The events of one goroutine *)
Definition own (i : nat) (evs : list levent) : list levent := filter (fun e => Nat.eqb (match e with ETook j _ | EFree j _ _ | EClock j _ _ _ => j end) i) evs.
