(** What is claimed of a session of link, in terms of what is observed. *)
From Verif Require Import Base Link.

(** the messages put into the queue, taken from it, written by the codec; the callbacks added and called *)
Definition puts (tr : list lev) : list Z := flat_map (fun e => match e with Put _ m => [m] | _ => [] end) tr.
(** see above *)
Definition tooks (tr : list lev) : list Z := flat_map (fun e => match e with Took m => [m] | _ => [] end) tr.
(** see above *)
Definition wrotes (tr : list lev) : list Z := flat_map (fun e => match e with Wrote m => [m] | _ => [] end) tr.
(** see above *)
Definition addeds (tr : list lev) : list Z := flat_map (fun e => match e with Added _ f => [f] | _ => [] end) tr.
(** see above *)
Definition rans (tr : list lev) : list Z := flat_map (fun e => match e with Ran f => [f] | _ => [] end) tr.

(** the milestones of closing *)
Definition milestones (tr : list lev) : list lev :=
  flat_map (fun e => match e with Won _ | CodecClosed | Invoked => [e] | _ => [] end) tr.

(** what goroutine i did *)
Definition mine (i : nat) (tr : list lev) : list lev :=
  filter (fun e => match e with Called j _ | Put j _ | Won j | Added j _ | Returned j _ => Nat.eqb i j | _ => false end) tr.

(** what a call may have done once it has returned *)
Inductive ended (i : nat) : lcall -> list lev -> Prop :=
| sent m : ended i (CallSend m) [Called i (CallSend m); Put i m; Returned i RNil]
| refused m : ended i (CallSend m) [Called i (CallSend m); Returned i RClosed]
| blocked m : ended i (CallSend m) [Called i (CallSend m); Returned i RBlocked]
| blocked_first m : ended i (CallSend m) [Called i (CallSend m); Won i; Returned i RBlocked]
| closed_first : ended i CallClose [Called i CallClose; Won i; Returned i RNil]
| closed_late : ended i CallClose [Called i CallClose; Returned i RClosed]
| added f : ended i (CallAdd f) [Called i (CallAdd f); Added i f; Returned i RNil]
| not_added f : ended i (CallAdd f) [Called i (CallAdd f); Returned i RNil].

(** nothing can go on *)
Definition at_rest (cap : nat) (s : link) : Prop := forall i b s' e, lmove cap s i b = Ok (s', e) -> s' = s.

(** n statements that change something *)
Inductive busy (cap : nat) : link -> nat -> link -> Prop :=
| no_step s : busy cap s 0 s
| one_more s i b s' e n s2 : lmove cap s i b = Ok (s', e) -> s' <> s -> busy cap s' n s2 -> busy cap s (S n) s2.

(** ** The session as one sees it from outside: every call happens at one moment *)

(** the events about messages in the queue, and all others *)
Definition is_traffic (e : lev) : bool := match e with Put _ _ | Took _ | Wrote _ => true | _ => false end.
(** see above *)
Definition traffic (tr : list lev) : list lev := filter is_traffic tr.
(** see above *)
Definition conduct (tr : list lev) : list lev := filter (fun e => negb (is_traffic e)) tr.
(** An open session accepts messages as long as there is room, and refuses nothing; a closed one accepts none.  The first closing closes it, there is no second. *)
Inductive accepts (cap : nat) : bool -> list Z -> list lev -> Prop :=
| acc_end o q : accepts cap o q []
| acc_put q i m tr : (length q < cap)%nat -> accepts cap true (q ++ [m]) tr -> accepts cap true q (Put i m :: tr)
| acc_took o q m tr : accepts cap o q tr -> accepts cap o (m :: q) (Took m :: tr)
| acc_close q i tr : accepts cap false q tr -> accepts cap true q (Won i :: tr)
| acc_error i r q tr : accepts cap false q tr -> accepts cap false q (Returned i r :: tr)
| acc_nil o i q tr : accepts cap o q tr -> accepts cap o q (Returned i RNil :: tr)
| acc_added i f o q tr : accepts cap o q tr -> accepts cap o q (Added i f :: tr)
| acc_other o q e tr : (match e with Called _ _ | Wrote _ | CodecClosed | Invoked | Ran _ => True | _ => False end) -> accepts cap o q tr -> accepts cap o q (e :: tr).
