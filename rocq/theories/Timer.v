(** timer.go over container/heap.  Elements live in a store (Go heap memory) and
    are referred to by their position in it; [q] is the slice of pointers. *)
From Verif Require Import Base.

(** element, timer.go:10-14.  Keys are numbers: the callers format session ids. *)
Record elem := Elem { e_key : Z; e_index : Z; e_expire : Z }.

(** CountdownTimer, timer.go:65-71 (the mutex is represented by the atomicity
    of the critical sections, the callback by the list of fired keys) *)
Record timer := Timer {
  tm_seconds : Z;
  tm_store : list elem;
  tm_q : list nat;
  tm_map : list (Z * nat) }.

(** Dereference of a pointer; every pointer in use is valid (proved). *)
Definition deref (st : list elem) (p : nat) : elem := nth p st (Elem 0 0 0).
(** assignment to one slice element, timer.go:23-26 *)
Fixpoint upd_nth {A} (l : list A) (i : nat) (x : A) : list A :=
  match l, i with
  | [], _ => []
  | _ :: t, O => x :: t
  | y :: t, S j => y :: upd_nth t j x
  end.
(** [p.Index = i] *)
Definition set_index (st : list elem) (p : nat) (i : Z) : list elem :=
  let e := deref st p in upd_nth st p (Elem (e_key e) i (e_expire e)).

(** State seen by container/heap: the store and the slice. *)
Definition hst : Type := list elem * list nat.

(** Less, timer.go:28-30 *)
Definition q_less (h : hst) (i j : nat) : bool :=
  e_expire (deref (fst h) (nth i (snd h) O)) <? e_expire (deref (fst h) (nth j (snd h) O)).

(** Swap, timer.go:23-26: the indices are assigned after the exchange *)
Definition q_swap (h : hst) (i j : nat) : hst :=
  let '(st, q) := h in
  let pi := nth i q O in
  let pj := nth j q O in
  let q' := upd_nth (upd_nth q i pj) j pi in
  (set_index (set_index st pj (Z.of_nat i)) pi (Z.of_nat j), q').

(** Pop, timer.go:32-39 *)
Definition q_pop (h : hst) : hst :=
  let '(st, q) := h in
  let n := length q in
  (set_index st (nth (n - 1) q O) (-1), firstn (n - 1) q).

(** Push, timer.go:41-46 *)
Definition q_push (h : hst) (p : nat) : hst :=
  let '(st, q) := h in (set_index st p (zlen q), q ++ [p]).

(** container/heap up: [for { i := (j-1)/2; if i == j || !Less(j,i) {break}; Swap(i,j); j = i }] *)
Fixpoint heap_up (fuel : nat) (h : hst) (j : nat) : hst :=
  match fuel with
  | O => h
  | S f =>
      let i := Nat.div (j - 1) 2 in
      if (i =? j)%nat || negb (q_less h j i) then h
      else heap_up f (q_swap h i j) i
  end.

(** container/heap down; returns the state and the final position *)
Fixpoint heap_down (fuel : nat) (h : hst) (i n : nat) : hst * nat :=
  match fuel with
  | O => (h, i)
  | S f =>
      let j1 := (2 * i + 1)%nat in
      if (n <=? j1)%nat then (h, i)
      else
        let j2 := S j1 in
        let j := if (j2 <? n)%nat && q_less h j2 j1 then j2 else j1 in
        if negb (q_less h j i) then (h, i)
        else heap_down f (q_swap h i j) j n
  end.

(** heap.Push *)
Definition heap_push (h : hst) (p : nat) : hst :=
  let h1 := q_push h p in
  let n := length (snd h1) in
  heap_up n h1 (n - 1).

(** heap.Remove(h, i) *)
Definition heap_remove (h : hst) (i : nat) : hst :=
  let n := (length (snd h) - 1)%nat in
  if (n =? i)%nat then q_pop h
  else
    let h1 := q_swap h i n in
    let '(h2, i') := heap_down (S n) h1 i n in
    let h3 := if (i <? i')%nat then h2 else heap_up (S n) h2 i in
    q_pop h3.

(** expirationQueue.Remove, timer.go:60-62; an index outside the slice panics *)
Definition q_remove (h : hst) (p : nat) : res hst :=
  let i := e_index (deref (fst h) p) in
  if (i <? 0) || (zlen (snd h) <=? i) then Panic
  else Ok (heap_remove h (Z.to_nat i)).

(** heap.Fix(h, i): [if !down(h, i, Len()) { up(h, i) }] *)
Definition heap_fix (h : hst) (i : nat) : hst :=
  let n := length (snd h) in
  let '(h1, i') := heap_down (S n) h i n in
  if (i <? i')%nat then h1 else heap_up (S n) h1 i.

(** [p.Expire = x] *)
Definition set_expire (st : list elem) (p : nat) (x : Z) : list elem :=
  let e := deref st p in upd_nth st p (Elem (e_key e) (e_index e) x).

(** expirationQueue.Update, timer.go:55-58 (not called by CountdownTimer) *)
Definition q_update (h : hst) (p : nat) (x : Z) : res hst :=
  let i := e_index (deref (fst h) p) in
  if (i <? 0) || (zlen (snd h) <=? i) then Panic
  else Ok (heap_fix (set_expire (fst h) p x, snd h) (Z.to_nat i)).

(** Go map operations on the association list *)
Fixpoint map_get (m : list (Z * nat)) (k : Z) : option nat :=
  match m with
  | [] => None
  | (k', p) :: t => if k' =? k then Some p else map_get t k
  end.
(** delete(timer.mapper, key), timer.go:109 and 141 *)
Fixpoint map_del (m : list (Z * nat)) (k : Z) : list (Z * nat) :=
  match m with
  | [] => []
  | (k', p) :: t => if k' =? k then map_del t k else (k', p) :: map_del t k
  end.
(** timer.mapper[key] = &e, timer.go:97 *)
Definition map_set (m : list (Z * nat)) (k : Z) (p : nat) : list (Z * nat) := (k, p) :: map_del m k.

(** NewCountdownTimer, timer.go:74-84 *)
Definition timer_new (seconds : Z) : timer := Timer seconds [] [] [].

(** Remove, timer.go:101-111 (one critical section) *)
Definition timer_remove (t : timer) (k : Z) : res timer :=
  match map_get (tm_map t) k with
  | None => Ok t
  | Some p =>
      do h <- q_remove (tm_store t, tm_q t) p ;
      Ok (Timer (tm_seconds t) (fst h) (snd h) (map_del (tm_map t) k))
  end.

(** The second critical section of Update, timer.go:94-97, with the element
    allocated at lines 88-91 (its deadline was computed there) *)
Definition timer_insert (t : timer) (k expire : Z) : timer :=
  let p := length (tm_store t) in
  let h := heap_push (tm_store t ++ [Elem k 0 expire], tm_q t) p in
  Timer (tm_seconds t) (fst h) (snd h) (map_set (tm_map t) k p).

(** int64 arithmetic wraps *)
Definition s64 (x : Z) : Z := (x + 9223372036854775808) mod 18446744073709551616 - 9223372036854775808.

(** The deadline of an Update at time [now], timer.go:90 *)
Definition deadline (t : timer) (now : Z) : Z := s64 (now + tm_seconds t).

(** Update, timer.go:87-98, executed without interruption at time [now] *)
Definition timer_update (t : timer) (k now : Z) : res timer :=
  do t1 <- timer_remove t k ;
  Ok (timer_insert t1 k (deadline t now)).

(** SetExpiration, timer.go:114-118 *)
Definition timer_set_expiration (t : timer) (seconds : Z) : timer :=
  if 0 <? seconds then Timer seconds (tm_store t) (tm_q t) (tm_map t) else t.

(** The loop of one tick, timer.go:131-143: the timer afterwards and the
    expired keys in the order in which the callback gets them.  [tm_store]
    bounds nothing; the loop ends because the queue shrinks. *)
Fixpoint timer_tick (fuel : nat) (t : timer) (now : Z) : res (timer * list Z) :=
  match fuel with
  | O => Err ErrFuel
  | S f =>
      match tm_q t with
      | [] => Ok (t, [])
      | top :: _ =>
          let e := deref (tm_store t) top in
          if now <? e_expire e then Ok (t, [])
          else
            do h <- q_remove (tm_store t, tm_q t) top ;
            do (t', keys) <- timer_tick f
              (Timer (tm_seconds t) (fst h) (snd h) (map_del (tm_map t) (e_key e))) now ;
            Ok (t', e_key e :: keys)
      end
  end.

(** One whole tick, timer.go:127-150 *)
Definition timer_check (t : timer) (now : Z) : res (timer * list Z) :=
  timer_tick (S (length (tm_q t))) t now.

(** ** Concurrent use *)

(** A goroutine inside Update, timer.go:87-98, named [uc_tok]: the element it
    has made (lines 88-91), and whether its Remove (line 92) is done *)
Record ucall := Ucall { uc_tok : Z; uc_key : Z; uc_expire : Z; uc_removed : bool }.

(** The timer, the running Updates, and the ticks so far with the keys handed
    to the callback (latest first) *)
Record tcfg := Tcfg { tc_timer : timer; tc_calls : list ucall; tc_fired : list (Z * list Z) }.

(** Lookup and removal of a running call by name *)
Fixpoint find_ucall (l : list ucall) (tok : Z) : option ucall :=
  match l with
  | [] => None
  | c :: t => if uc_tok c =? tok then Some c else find_ucall t tok
  end.
(** an Update call returns (bookkeeping of the schedule, no code) *)
Fixpoint del_ucall (l : list ucall) (tok : Z) : list ucall :=
  match l with
  | [] => []
  | c :: t => if uc_tok c =? tok then t else c :: del_ucall t tok
  end.

(** Atomic steps of goroutines, in any interleaving; the critical sections of
    the mutex are steps:
    [TStart]: Update begins and computes the deadline (lines 88-91);
    [TDel]: its Remove (line 92); [TIns]: its second critical section (94-97);
    [TRemove]: Remove (101-111); [TSet]: SetExpiration (114-118);
    [TTick]: the locked part of a tick (127-143) and the callbacks. *)
Inductive top := TStart (tok key now : Z) | TDel (tok : Z) | TIns (tok : Z) | TRemove (key : Z) | TSet (seconds : Z) | TTick (now : Z).

(** One step; a step that is not enabled does nothing. *)
Definition tstep (c : tcfg) (o : top) : res tcfg :=
  let t := tc_timer c in
  match o with
  | TStart tok k now => Ok (Tcfg t (Ucall tok k (deadline t now) false :: tc_calls c) (tc_fired c))
  | TDel tok =>
      match find_ucall (tc_calls c) tok with
      | Some (Ucall _ k x false) =>
          do t' <- timer_remove t k ;
          Ok (Tcfg t' (Ucall tok k x true :: del_ucall (tc_calls c) tok) (tc_fired c))
      | _ => Ok c
      end
  | TIns tok =>
      match find_ucall (tc_calls c) tok with
      | Some (Ucall _ k x true) => Ok (Tcfg (timer_insert t k x) (del_ucall (tc_calls c) tok) (tc_fired c))
      | _ => Ok c
      end
  | TRemove k => do t' <- timer_remove t k ; Ok (Tcfg t' (tc_calls c) (tc_fired c))
  | TSet s => Ok (Tcfg (timer_set_expiration t s) (tc_calls c) (tc_fired c))
  | TTick now => do (t', keys) <- timer_check t now ; Ok (Tcfg t' (tc_calls c) ((now, keys) :: tc_fired c))
  end.

(** A history, executed *)
Fixpoint trun (c : tcfg) (ops : list top) : res tcfg :=
  match ops with
  | [] => Ok c
  | o :: t => do c' <- tstep c o ; trun c' t
  end.
(** the state NewCountdownTimer returns, timer.go:74-84 *)
Definition tinit (seconds : Z) : tcfg := Tcfg (timer_new seconds) [] [].

(** The same without concurrency: whole Updates. *)
Inductive uop := UUpdate (key now : Z) | URemove (key : Z) | USet (seconds : Z) | UTick (now : Z).

(** One call or tick, and the keys that fire *)
Definition ustep (t : timer) (o : uop) : res (timer * list Z) :=
  match o with
  | UUpdate k now => do t' <- timer_update t k now ; Ok (t', [])
  | URemove k => do t' <- timer_remove t k ; Ok (t', [])
  | USet s => Ok (timer_set_expiration t s, [])
  | UTick now => timer_check t now
  end.
(** A sequence of calls and ticks; what each of them fires *)
Fixpoint urun (t : timer) (ops : list uop) : res (timer * list (list Z)) :=
  match ops with
  | [] => Ok (t, [])
  | o :: r => do (t1, k) <- ustep t o ; do (t2, ks) <- urun t1 r ; Ok (t2, k :: ks)
  end.
