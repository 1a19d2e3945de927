(** Serial numbers, answers and histories of a session, independently of the code. *)
From Verif Require Import Base Env EntTerm EntPlat Registry Message Session.

(** The [k]-th serial number (from 0): 1, 2, ..., 255, 1, 2, ... *)
Definition serial (k : nat) : Z := Z.of_nat (k mod 255) + 1.
(** The serial number an answer quotes, by the type of the answer. *)
Inductive quotes : entity -> Z -> Prop :=
| q0001 e : quotes (E0001 e) (a0001_serial e)
| q0104 e : quotes (E0104 e) (a0104_serial e)
| q0201 e : quotes (E0201 e) (a0201_serial e)
| q0302 e : quotes (E0302 e) (a0302_serial e)
| q0500 e : quotes (E0500 e) (a0201_serial e)
| q0700 e : quotes (E0700 e) (a0700_serial e)
| q0802 e : quotes (E0802 e) (a0802_serial e)
| q0805 e : quotes (E0805 e) (a0805_serial e).
(** A received message with a body of the announced type (C29). *)
Definition proper (m : message) : Prop := exists e, m_body m = BEnt e /\ entity_id e = h_id (m_hdr m).
Definition answers (m : message) (n : Z) : Prop := exists e, m_body m = BEnt e /\ quotes e n.

(** Calls started in a history; each has a name of its own. *)
Definition started (ops : list sop) : list Z := flat_map (fun o => match o with SStart t _ _ => [t] | _ => [] end) ops.
(** What a log (latest first) says. *)
Definition drawn (l : list sevent) : list Z := flat_map (fun ev => match ev with EvNext _ n => [n] | _ => [] end) l.
Definition answered (l : list sevent) : list Z := flat_map (fun ev => match ev with EvAnswer t _ => [t] | _ => [] end) l.
(** Messages given to the receiving goroutine. *)
Definition arrivals (ops : list sop) : list message := flat_map (fun o => match o with SIcc m => [m] | _ => [] end) ops.
(** Unsuccessful compare-and-swap steps of a schedule. *)
Definition fails_at (c : ncfg) (i : nat) : bool :=
  match nth_error (n_threads c) i with Some (NCas id) => negb (n_next c =? id) | _ => false end.
Fixpoint nfails (c : ncfg) (sched : list nat) : nat :=
  match sched with
  | [] => O
  | i :: t => ((if fails_at c i then 1 else 0) + nfails (nstep c i) t)%nat
  end.
(** A pending request is not disturbed by a history: no request with the same
    message ID is registered and no answer quoting its serial number is taken. *)
Fixpoint undisturbed (r : request) (c : scfg) (ops : list sop) : Prop :=
  match ops with
  | [] => True
  | o :: t =>
      match o with
      | SAdd tok => match find_call (sc_calls c) tok with Some cl => entity_id (cl_ent cl) <> rq_msgid r | None => True end
      | STake => match sc_busy c with Some m => ~ answers m (rq_serial r) | None => True end
      | _ => True
      end /\ forall c', sstep c o = Ok c' -> undisturbed r c' t
  end.
(** Every message that was handed to link by a session. *)
Definition wired (l : list sevent) : list message := flat_map (fun ev => match ev with EvSent _ m => [m] | _ => [] end) l.
(** Terminal numbers announced by messages (0 is none). *)
Definition announced (ms : list message) (icc : Z) : Prop := icc = 0 \/ exists m, In m ms /\ h_icc (m_hdr m) = icc /\ 0 < icc.
