(** Bodies shared between callers and send loops, specification. *)
From Verif Require Import Base Env Registry EntTerm EntPlat Message Pool.

(** A history of the senders *)
Definition pool_runs (env : Env) (ops : list pool_op) (pl : pool) (evs : list pool_event) : Prop := pool_run env pool_init ops = Ok (pl, evs).

(** The value of a body: what the caller last gave it, and what each encoding since left of it *)
Definition after (p : nat) (v : option entity) (ev : pool_event) : option entity :=
  match ev with
  | VNew q e | VAssign q e => if Nat.eqb q p then Some e else v
  | VWire _ _ m _ => if Nat.eqb (po_ptr m) p then option_map encoded v else v
  | VFailed _ m e => if Nat.eqb (po_ptr m) p then Some e else v
  | _ => v
  end.
Definition value (p : nat) (evs : list pool_event) : option entity := fold_left (after p) evs None.

(** The messages link took for a session *)
Definition accepted_posts (s : nat) (evs : list pool_event) : list post :=
  flat_map (fun ev => match ev with VPut _ s' m => if Nat.eqb s' s then [m] else [] | _ => [] end) evs.
(** The messages its send loop has dealt with *)
Definition dealt (s : nat) (evs : list pool_event) : list post :=
  flat_map (fun ev => match ev with VWire s' _ m _ | VFailed s' m _ => if Nat.eqb s' s then [m] else [] | _ => [] end) evs.
(** The messages made for a session *)
Definition made (s : nat) (evs : list pool_event) : list post :=
  flat_map (fun ev => match ev with VMake _ s' h p _ => if Nat.eqb s' s then [Post h p] else [] | _ => [] end) evs.
(** How often a body was given to Send *)
Definition times_sent (p : nat) (evs : list pool_event) : nat :=
  length (filter (fun ev => match ev with VMake _ _ _ q _ => Nat.eqb q p | _ => false end) evs).
(** The caller does not assign to it. *)
Definition untouched_in (p : nat) (evs : list pool_event) : Prop := forall e, ~ In (VAssign p e) evs.

(** A frame of this header and this body *)
Definition frame_of (env : Env) (h : header) (e : entity) (rnd : Z) (d : bytes) : Prop :=
  exists m', msg_encode env None rnd (Message h (BEnt e)) = Ok (d, m').
(** A body that only one call of Encode gets whole *)
Definition uses_up (e : entity) : Prop := exists x, e = E0801 x.

(** Calls of Send for one session do not overlap. *)
Fixpoint one_at_a_time (s : nat) (busy : bool) (evs : list pool_event) : Prop :=
  match evs with
  | [] => True
  | VMake _ s' _ _ _ :: r => if Nat.eqb s' s then busy = false /\ one_at_a_time s true r else one_at_a_time s busy r
  | VPut _ s' _ :: r | VRefused _ s' _ :: r => if Nat.eqb s' s then one_at_a_time s false r else one_at_a_time s busy r
  | _ :: r => one_at_a_time s busy r
  end.
