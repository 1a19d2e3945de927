(** Server.Run and Server.Stop, server.go:62-87: any number of calls at the same time.

    Both read and write the field [server.server] without a lock.  Each access to the field is one step,
    each call into net and link that matters is one step, and the steps of the calls come in any order.

    Simplifications: of a link server only the listener is kept (its sessions are in Server.v, Fine.v and
    World.v).  Assumed of link: Serve accepts until the listener fails or is closed and then returns an
    error without closing it; Stop closes the listener; both panic on a nil server.  Assumed of net:
    Listen fails when a listener of the process is open on the port (port 0 stands for a free port), and
    may fail for other reasons.  All calls name the same network. *)
From Verif Require Import Base.

(** A link server made by Run, server.go:76: the port of its listener, and whether that is open *)
Record linked := Linked { ln_port : Z; ln_open : bool }.

(** How Run returns, server.go:63-65, 69-71, 78 *)
Inductive run_back := BRefused | BListen | BServe.

(** A goroutine inside Run, server.go:62-79.  [RListen]: past the nil check; [RAssign l]: the listener of
    link server [l] is open; [RServe]: the field is assigned and not yet read again; [RAccept l]: in Serve
    of [l]. *)
Inductive runner :=
| RListen (port : Z)
| RAssign (l : nat)
| RServe
| RAccept (l : nat)
| RBack (r : run_back).

(** A goroutine inside Stop, server.go:82-87.  [SClose]: past the nil check; [SClear]: link's Stop has
    returned. *)
Inductive stopper := SClose | SClear | SBack.

(** The field [server.server], the link servers made so far, and the calls *)
Record life := Life { lf_field : option nat; lf_links : list linked; lf_runs : list runner; lf_stops : list stopper }.

(** What happens next.  [LRun port], [LStop]: a call begins; [LStep i], [LEnd j]: call [i] of Run, call [j] of
    Stop goes on; [LRefuse i]: net.Listen fails for a reason outside of the process; [LLost i]: Accept
    fails in call [i] of Run. *)
Inductive lop := LRun (port : Z) | LStep (i : nat) | LRefuse (i : nat) | LLost (i : nat) | LStop | LEnd (j : nat).

(** What can be seen from outside, and the two writes of the field *)
Inductive levent :=
| VBack (i : nat) (r : run_back)
| VListening (i l : nat) (port : Z)
| VAssigned (l : nat)
| VServing (i l : nat)
| VClosed (l : nat)
| VCleared
| VStopped (j : nat).

(** Before the first call, server.go:50-59 *)
Definition life_new : life := Life None [] [] [].

(** Element assignment *)
Fixpoint set_at {A} (l : list A) (n : nat) (v : A) : list A :=
  match l, n with
  | [], _ => []
  | _ :: t, O => v :: t
  | x :: t, S n' => x :: set_at t n' v
  end.

(** net.Listen finds the port taken, server.go:68 *)
Definition taken (ls : list linked) (port : Z) : bool :=
  negb (port =? 0) && existsb (fun k => ln_open k && (ln_port k =? port)) ls.

(** link's Stop closes the listener, server.go:84 *)
Definition shut (ls : list linked) (l : nat) : list linked :=
  match nth_error ls l with
  | Some k => set_at ls l (Linked (ln_port k) false)
  | None => ls
  end.

(** Whether the listener of link server [l] is open *)
Definition listening (ls : list linked) (l : nat) : bool :=
  match nth_error ls l with Some k => ln_open k | None => false end.

(** The state with call [i] of Run at [r] *)
Definition at_run (s : life) (i : nat) (r : runner) : life :=
  Life (lf_field s) (lf_links s) (set_at (lf_runs s) i r) (lf_stops s).

(** One step; a step a call cannot do changes nothing. *)
Definition lstep (s : life) (o : lop) : res (life * list levent) :=
  match o with
  | LRun port =>                                                             (* server.go:63-65 *)
      match lf_field s with
      | Some _ => Ok (Life (lf_field s) (lf_links s) (lf_runs s ++ [RBack BRefused]) (lf_stops s),
                      [VBack (length (lf_runs s)) BRefused])
      | None => Ok (Life (lf_field s) (lf_links s) (lf_runs s ++ [RListen port]) (lf_stops s), [])
      end
  | LStep i =>
      match nth_error (lf_runs s) i with
      | Some (RListen port) =>                                               (* server.go:67-71 *)
          if taken (lf_links s) port then Ok (at_run s i (RBack BListen), [VBack i BListen])
          else let l := length (lf_links s) in
               Ok (Life (lf_field s) (lf_links s ++ [Linked port true]) (set_at (lf_runs s) i (RAssign l)) (lf_stops s),
                   [VListening i l port])
      | Some (RAssign l) =>                                                  (* server.go:76 *)
          Ok (Life (Some l) (lf_links s) (set_at (lf_runs s) i RServe) (lf_stops s), [VAssigned l])
      | Some RServe =>                                                       (* server.go:78 *)
          match lf_field s with
          | None => Panic
          | Some l => Ok (at_run s i (RAccept l), [VServing i l])
          end
      | Some (RAccept l) =>                                                  (* server.go:78: the listener was closed *)
          if listening (lf_links s) l then Ok (s, [])
          else Ok (at_run s i (RBack BServe), [VBack i BServe])
      | _ => Ok (s, [])
      end
  | LRefuse i =>                                                             (* server.go:69-71 *)
      match nth_error (lf_runs s) i with
      | Some (RListen _) => Ok (at_run s i (RBack BListen), [VBack i BListen])
      | _ => Ok (s, [])
      end
  | LLost i =>                                                               (* server.go:78 *)
      match nth_error (lf_runs s) i with
      | Some (RAccept l) => Ok (at_run s i (RBack BServe), [VBack i BServe])
      | _ => Ok (s, [])
      end
  | LStop =>                                                                 (* server.go:83 *)
      match lf_field s with
      | Some _ => Ok (Life (lf_field s) (lf_links s) (lf_runs s) (lf_stops s ++ [SClose]), [])
      | None => Ok (Life (lf_field s) (lf_links s) (lf_runs s) (lf_stops s ++ [SBack]), [VStopped (length (lf_stops s))])
      end
  | LEnd j =>
      match nth_error (lf_stops s) j with
      | Some SClose =>                                                       (* server.go:84 *)
          match lf_field s with
          | None => Panic
          | Some l => Ok (Life (lf_field s) (shut (lf_links s) l) (lf_runs s) (set_at (lf_stops s) j SClear), [VClosed l])
          end
      | Some SClear =>                                                       (* server.go:85 *)
          Ok (Life None (lf_links s) (lf_runs s) (set_at (lf_stops s) j SBack), [VCleared; VStopped j])
      | _ => Ok (s, [])
      end
  end.

(** A history *)
Fixpoint lrun (s : life) (os : list lop) : res (life * list levent) :=
  match os with
  | [] => Ok (s, [])
  | o :: t => do (s1, e1) <- lstep s o ; do (s2, e2) <- lrun s1 t ; Ok (s2, e1 ++ e2)
  end.
