(** A [Param] and a caller sharing one heap: Go slices are references, so storing
    or returning a slice without copying would let one side change the other's bytes. *)
From Verif Require Import Base EntTerm.

(** Backing arrays by address; the parameter's id and the address behind its
    [serialized] slice (params.go:12-15); the addresses the caller holds. *)
Record pstate := PState { pmem : list bytes; pid : Z; pbuf : nat; mine : list nat }.

(** the array behind a slice, protocol/params.go:12-15 *)
Definition buf_at (m : list bytes) (a : nat) : bytes := nth a m [].
(** b[i] = v on a slice *)
Fixpoint set_nth {A} (n : nat) (v : A) (l : list A) : list A :=
  match l, n with
  | [], _ => []
  | _ :: t, O => v :: t
  | x :: t, S n' => x :: set_nth n' v t
  end.

(** the operations of a caller of protocol/params.go:18-107 *)
Inductive pop :=
| PMake (d : bytes)              (* the caller allocates a slice *)
| PWrite (a i : nat) (b : Z)     (* the caller stores b at index i of one of its slices *)
| PSetBytes (id : Z) (a : nat)   (* param.SetBytes(id, slice), params.go:30-36 *)
| PSetByte (id b : Z)            (* params.go:23-27 *)
| PSetUint16 (id n : Z)          (* params.go:39-45 *)
| PSetUint32 (id n : Z)          (* params.go:48-54 *)
| PGetBytes.                     (* params.go:75-79; the caller keeps the result *)

(** One call; the caller can only use slices it holds. *)
Definition pstep (s : pstate) (o : pop) : pstate :=
  let m := pmem s in
  let fresh := length m in
  match o with
  | PMake d => PState (m ++ [d]) (pid s) (pbuf s) (fresh :: mine s)
  | PWrite a i b =>
      if existsb (Nat.eqb a) (mine s)
      then PState (set_nth a (set_nth i b (buf_at m a)) m) (pid s) (pbuf s) (mine s)
      else s
  | PSetBytes id a =>
      if existsb (Nat.eqb a) (mine s)
      then PState (m ++ [buf_at m a]) id fresh (mine s)   (* make, copy *)
      else s
  | PSetByte id b => PState (m ++ [[b]]) id fresh (mine s)
  | PSetUint16 id n => PState (m ++ [w_u16 n]) id fresh (mine s)
  | PSetUint32 id n => PState (m ++ [w_u32 n]) id fresh (mine s)
  | PGetBytes => PState (m ++ [buf_at m (pbuf s)]) (pid s) (pbuf s) (fresh :: mine s)   (* make, copy *)
  end.
(** a program of such operations *)
Definition prun (s : pstate) (ops : list pop) : pstate := fold_left pstep ops s.
(** new(Param): nil slice (address 0 is an empty array nobody holds) *)
Definition pinit : pstate := PState [[]] 0 0 [].
(** The parameter as a value. *)
Definition pvalue (s : pstate) : param := Param (pid s) (buf_at (pmem s) (pbuf s)).
