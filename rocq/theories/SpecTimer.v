(** What a countdown timer should do: every key has at most one deadline. *)
From Coq Require Import Sorted.
From Verif Require Import Base Timer.

(** Deadlines by key *)
Definition dls := Z -> option Z.
Definition none_due : dls := fun _ => None.
Definition put (f : dls) (k : Z) (d : option Z) : dls := fun x => if x =? k then d else f x.
Definition expired (f : dls) (now k : Z) : bool := match f k with Some d => d <=? now | None => false end.
Definition without_expired (f : dls) (now : Z) : dls := fun k => if expired f now k then None else f k.
(** A tick fires every expired key once and no other, in the order of the deadlines. *)
Definition fires (f : dls) (now : Z) (keys : list Z) : Prop :=
  NoDup keys /\ (forall k, In k keys <-> expired f now k = true) /\
  exists ds, map f keys = map Some ds /\ StronglySorted Z.le ds.

(** Calls that do not overlap.  [dead s now] is the deadline given by an Update
    at time [now] when the timeout is [s]. *)
Record tspec := Tspec { ts_secs : Z; ts_dl : dls }.
Definition spec_step (dead : Z -> Z -> Z) (s : tspec) (o : uop) : tspec :=
  match o with
  | UUpdate k now => Tspec (ts_secs s) (put (ts_dl s) k (Some (dead now (ts_secs s))))
  | URemove k => Tspec (ts_secs s) (put (ts_dl s) k None)
  | USet n => if 0 <? n then Tspec n (ts_dl s) else s
  | UTick now => Tspec (ts_secs s) (without_expired (ts_dl s) now)
  end.
Fixpoint conforms (dead : Z -> Z -> Z) (s : tspec) (ops : list uop) (out : list (list Z)) : Prop :=
  match ops, out with
  | [], [] => True
  | o :: t, ks :: r =>
      match o with UTick now => fires (ts_dl s) now ks | _ => ks = [] end /\ conforms dead (spec_step dead s o) t r
  | _, _ => False
  end.
(** Sums that wrap at 64 bits *)
Definition wrapped (a b : Z) : Z := (a + b + 2 ^ 63) mod 2 ^ 64 - 2 ^ 63.
(** Clock readings and timeouts whose sums do not. *)
Definition ordinary (x : Z) : Prop := - 2 ^ 62 <= x < 2 ^ 62.
Definition ordinary_op (o : uop) : Prop :=
  match o with UUpdate _ now => ordinary now | USet n => ordinary n | _ => True end.

(** Calls that may overlap; the running ones. *)
Record cspec := Cspec { cs_secs : Z; cs_run : list ucall; cs_dl : dls }.
Definition running (s : cspec) (tok : Z) : option ucall := find_ucall (cs_run s) tok.
Definition cspec_step (s : cspec) (o : top) : cspec :=
  match o with
  | TStart tok k now => Cspec (cs_secs s) (Ucall tok k (wrapped now (cs_secs s)) false :: cs_run s) (cs_dl s)
  | TDel tok =>
      match running s tok with
      | Some (Ucall _ k x false) => Cspec (cs_secs s) (Ucall tok k x true :: del_ucall (cs_run s) tok) (put (cs_dl s) k None)
      | _ => s
      end
  | TIns tok =>
      match running s tok with
      | Some (Ucall _ k x true) => Cspec (cs_secs s) (del_ucall (cs_run s) tok) (put (cs_dl s) k (Some x))
      | _ => s
      end
  | TRemove k => Cspec (cs_secs s) (cs_run s) (put (cs_dl s) k None)
  | TSet n => if 0 <? n then Cspec n (cs_run s) (cs_dl s) else s
  | TTick now => Cspec (cs_secs s) (cs_run s) (without_expired (cs_dl s) now)
  end.
(** No Update of a key begins while another one of the same key is running. *)
Fixpoint apart (s : cspec) (ops : list top) : Prop :=
  match ops with
  | [] => True
  | o :: t =>
      match o with
      | TStart tok k _ => Forall (fun c => uc_key c <> k /\ uc_tok c <> tok) (cs_run s)
      | _ => True
      end /\ apart (cspec_step s o) t
  end.
(** The ticks of a history fire what they should. *)
Fixpoint ticks_ok (s : cspec) (ops : list top) (out : list (Z * list Z)) : Prop :=
  match ops with
  | [] => out = []
  | TTick now :: t =>
      match out with
      | (n, ks) :: r => n = now /\ fires (cs_dl s) now ks /\ ticks_ok (cspec_step s (TTick now)) t r
      | [] => False
      end
  | o :: t => ticks_ok (cspec_step s o) t out
  end.

(** Counting, for arbitrary interleavings *)
Definition updates (k : Z) (ops : list top) : nat :=
  length (filter (fun o => match o with TStart _ k' _ => k' =? k | _ => false end) ops).
Definition firings (k : Z) (out : list (Z * list Z)) : nat :=
  count_occ Z.eq_dec (concat (map snd out)) k.
(** The timeouts in force at some time of a history *)
Definition timeouts (s0 : Z) (ops : list top) : list Z :=
  s0 :: flat_map (fun o => match o with TSet n => if 0 <? n then [n] else [] | _ => [] end) ops.
(** The timeout in force after a history *)
Definition timeout_after (s0 : Z) (ops : list uop) : Z := ts_secs (fold_left (spec_step Z.add) ops (Tspec s0 none_due)).
Definition updates_key (k : Z) (o : uop) : Prop := match o with UUpdate k' _ => k' = k | _ => False end.
(** A priority queue: the first element has the least deadline among all that
    follow below it, and every element records its position. *)
Definition queue_ok (st : list elem) (q : list nat) : Prop :=
  (forall i, (0 < i < length q)%nat -> e_expire (nth (nth ((i - 1) / 2) q O) st (Elem 0 0 0)) <= e_expire (nth (nth i q O) st (Elem 0 0 0))) /\
  (forall i, (i < length q)%nat -> (nth i q O < length st)%nat /\ e_index (nth (nth i q O) st (Elem 0 0 0)) = Z.of_nat i).
