(** Calls of Run and Stop, specification. *)
From Verif Require Import Base Life.

(** The link server that was assigned last, unless the field has been cleared since *)
Definition owner (evs : list levent) : option nat :=
  fold_left (fun f v => match v with VAssigned l => Some l | VCleared => None | _ => f end) evs None.
(** A listener that was opened and not closed *)
Definition left_open (evs : list levent) (l : nat) : Prop :=
  (exists i p, In (VListening i l p) evs) /\ ~ In (VClosed l) evs.

(** A call of Run that is in Serve or has returned *)
Definition run_rests (r : runner) : Prop := match r with RAccept _ | RBack _ => True | _ => False end.
(** Every Run is in Serve or has returned, every Stop has returned. *)
Definition rests (s : life) : Prop := Forall run_rests (lf_runs s) /\ Forall (eq SBack) (lf_stops s).
(** A call begins *)
Definition begins (o : lop) : Prop := match o with LRun _ | LStop => True | _ => False end.
(** No call begins while a Stop is under way or a Run has not reached Serve. *)
Definition in_turn (os : list lop) : Prop := forall pre o post s evs,
  os = pre ++ o :: post -> begins o -> lrun life_new pre = Ok (s, evs) -> rests s.
(** Call [i] of Run reads the field next, or call [j] of Stop does *)
Definition reads_field (s : life) (o : lop) : Prop :=
  match o with
  | LStep i => nth_error (lf_runs s) i = Some RServe
  | LEnd j => nth_error (lf_stops s) j = Some SClose
  | _ => False
  end.

(** What happens to call [i] of Run *)
Definition of_run (i : nat) (v : levent) : bool :=
  match v with VListening k _ _ | VServing k _ | VBack k _ => Nat.eqb k i | _ => false end.
(** A call of Run is refused, fails to listen, or listens, serves and returns, each once and in this order. *)
Definition run_course (i : nat) (evs : list levent) : Prop :=
  evs = [] \/ evs = [VBack i BRefused] \/ evs = [VBack i BListen] \/
  exists l p l', evs = [VListening i l p] \/ evs = [VListening i l p; VServing i l'] \/ evs = [VListening i l p; VServing i l'; VBack i BServe].
