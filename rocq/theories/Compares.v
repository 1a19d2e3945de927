(** Comparisons of deadlines made by the timer: the functions of Timer.v with a counter of the calls of Less. *)
From Verif Require Import Base Timer.

(** container/heap up, under heap.Push and heap.Remove, called at timer.go:61 and :96, with the counter *)
Fixpoint up_n (fuel : nat) (h : hst) (j : nat) : Z * hst :=
  match fuel with
  | O => (0, h)
  | S f =>
      let i := Nat.div (j - 1) 2 in
      if (i =? j)%nat then (0, h)
      else if negb (q_less h j i) then (1, h)
      else let '(c, h') := up_n f (q_swap h i j) i in (1 + c, h')
  end.
(** container/heap down, under heap.Remove, called at timer.go:61, with the counter: the second child is compared only if there is one *)
Fixpoint down_n (fuel : nat) (h : hst) (i n : nat) : Z * (hst * nat) :=
  match fuel with
  | O => (0, (h, i))
  | S f =>
      let j1 := (2 * i + 1)%nat in
      if (n <=? j1)%nat then (0, (h, i))
      else
        let j2 := S j1 in
        let two := (j2 <? n)%nat in
        let j := if two && q_less h j2 j1 then j2 else j1 in
        let c := if two then 2 else 1 in
        if negb (q_less h j i) then (c, (h, i))
        else let '(c', r) := down_n f (q_swap h i j) j n in (c + c', r)
  end.
(** heap.Push, called at timer.go:96, with the counter *)
Definition push_n (h : hst) (p : nat) : Z * hst :=
  let h1 := q_push h p in
  let n := length (snd h1) in
  up_n n h1 (n - 1).
(** heap.Remove, called at timer.go:61, with the counter *)
Definition remove_n (h : hst) (i : nat) : Z * hst :=
  let n := (length (snd h) - 1)%nat in
  if (n =? i)%nat then (0, q_pop h)
  else
    let h1 := q_swap h i n in
    let '(c, (h2, i')) := down_n (S n) h1 i n in
    let '(c', h3) := if (i <? i')%nat then (0, h2) else up_n (S n) h2 i in
    (c + c', q_pop h3).
(** expirationQueue.Remove, timer.go:60-62, with the counter *)
Definition q_remove_n (h : hst) (p : nat) : res (Z * hst) :=
  let i := e_index (deref (fst h) p) in
  if (i <? 0) || (zlen (snd h) <=? i) then Panic
  else Ok (remove_n h (Z.to_nat i)).
(** Remove, timer.go:101-111, with the counter *)
Definition timer_remove_n (t : timer) (k : Z) : res (Z * timer) :=
  match map_get (tm_map t) k with
  | None => Ok (0, t)
  | Some p =>
      do (c, h) <- q_remove_n (tm_store t, tm_q t) p ;
      Ok (c, Timer (tm_seconds t) (fst h) (snd h) (map_del (tm_map t) k))
  end.
(** The second critical section of Update, timer.go:94-97, with the counter *)
Definition timer_insert_n (t : timer) (k expire : Z) : Z * timer :=
  let p := length (tm_store t) in
  let '(c, h) := push_n (tm_store t ++ [Elem k 0 expire], tm_q t) p in
  (c, Timer (tm_seconds t) (fst h) (snd h) (map_set (tm_map t) k p)).
(** Update, timer.go:87-98, with the counter *)
Definition timer_update_n (t : timer) (k now : Z) : res (Z * timer) :=
  do (c, t1) <- timer_remove_n t k ;
  let '(c', t2) := timer_insert_n t1 k (deadline t now) in Ok (c + c', t2).
(** The loop of one tick, timer.go:131-143, with the counter *)
Fixpoint timer_tick_n (fuel : nat) (t : timer) (now : Z) : res (Z * timer * list Z) :=
  match fuel with
  | O => Err ErrFuel
  | S f =>
      match tm_q t with
      | [] => Ok (0, t, [])
      | top :: _ =>
          let e := deref (tm_store t) top in
          if now <? e_expire e then Ok (0, t, [])
          else
            do (c, h) <- q_remove_n (tm_store t, tm_q t) top ;
            do (c', t', keys) <- timer_tick_n f
              (Timer (tm_seconds t) (fst h) (snd h) (map_del (tm_map t) (e_key e))) now ;
            Ok (c + c', t', e_key e :: keys)
      end
  end.
(** One whole tick, timer.go:127-150, with the counter *)
Definition timer_check_n (t : timer) (now : Z) : res (Z * timer * list Z) :=
  timer_tick_n (S (length (tm_q t))) t now.
(** One call or tick, as [ustep] of Timer.v: the comparisons made and the keys that fire *)
Definition ustep_n (t : timer) (o : uop) : res (timer * (Z * list Z)) :=
  match o with
  | UUpdate k now => do (c, t') <- timer_update_n t k now ; Ok (t', (c, []))
  | URemove k => do (c, t') <- timer_remove_n t k ; Ok (t', (c, []))
  | USet s => Ok (timer_set_expiration t s, (0, []))
  | UTick now => do (c, t', keys) <- timer_check_n t now ; Ok (t', (c, keys))
  end.
(** A sequence of calls and ticks, as [urun] of Timer.v *)
Fixpoint urun_n (t : timer) (ops : list uop) : res (timer * list (Z * list Z)) :=
  match ops with
  | [] => Ok (t, [])
  | o :: r => do (t1, k) <- ustep_n t o ; do (t2, ks) <- urun_n t1 r ; Ok (t2, k :: ks)
  end.
