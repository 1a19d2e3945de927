(** Bodies are pointers: Session.Send (session.go:70-85) queues a message whose body
    the caller still holds, and the send loop of link encodes it later
    (protocol.go:60-98).  The same body may be in the queues of several sessions
    (Broadcast, server.go:106-121).  Host.v gives every queued message its own copy.

    Simplifications: one call of Encode is one step, although two send loops may
    encode one body at the same time (that is in Race.v); the terminal number and the serial number are
    taken in one step (Session.v has them apart); a failed Write writes nothing;
    Session.Send only makes headers without the encryption flag, so the key of the
    codec is of no effect (C73). *)
From Verif Require Import Base Env Registry Message Session.

(** A message in the channel of link: protocol.Message, protocol/message.go:14-17, with the address of its body *)
Record post := Post { po_hdr : header; po_ptr : nat }.
(** A session: next and iccID (session.go:22-23), the channel of link, whether the session is closed, whether its send loop runs *)
Record line := Line { ln_next : Z; ln_icc : Z; ln_queue : list post; ln_closed : bool; ln_runs : bool }.
(** All bodies by address, the sessions, and the goroutines that are inside Send with the message they have made (session.go:71-78) *)
Record pool := Pool { pl_heap : list entity; pl_lines : list line; pl_calls : list (nat * (nat * post)) }.

(** What happens: a caller makes a body or assigns to one; a session is accepted, learns its terminal
    number (session.go:139-149) or is closed; goroutine [g] enters Send and makes the message (71-78), and hands it to link (80);
    the send loop takes a message and passes it to codec.Send (protocol.go:60-98), [wr] is the error of Write, [lv] what a failed
    encoding makes of the body. *)
Inductive pool_op :=
| BNew (e : entity)
| BAssign (p : nat) (e : entity)
| BAccept
| BIcc (s : nat) (icc : Z)
| BClose (s : nat)
| BMake (g s p : nat)
| BPut (g : nat)
| BWrite (s : nat) (rnd : Z) (wr : option goerr) (lv : entity).

(** Effects.  [VMake g s h p e]: the message made has header [h] and body [e] at this moment.
    [VPut], [VRefused]: link took it or not.  [VWire]: bytes were written.  [VFailed]: encoding or Write failed, [v] is the body afterwards. *)
Inductive pool_event :=
| VNew (p : nat) (e : entity)
| VAssign (p : nat) (e : entity)
| VMake (g s : nat) (h : header) (p : nat) (e : entity)
| VPut (g s : nat) (m : post)
| VRefused (g s : nat) (m : post)
| VWire (s : nat) (rnd : Z) (m : post) (d : bytes)
| VFailed (s : nat) (m : post) (v : entity).

(** Assignment to an element *)
Fixpoint put_nth {A} (n : nat) (v : A) (l : list A) : list A :=
  match l, n with
  | [], _ => []
  | _ :: t, O => v :: t
  | x :: t, S n' => x :: put_nth n' v t
  end.
(** The call goroutine [g] is in *)
Fixpoint call_of (l : list (nat * (nat * post))) (g : nat) : option (nat * post) :=
  match l with
  | [] => None
  | (i, c) :: t => if Nat.eqb i g then Some c else call_of t g
  end.
(** The call returns *)
Definition drop_call (l : list (nat * (nat * post))) (g : nat) : list (nat * (nat * post)) := filter (fun x => negb (Nat.eqb (fst x) g)) l.
(** Assignment to a session *)
Definition set_line (pl : pool) (s : nat) (l : line) : pool := Pool (pl_heap pl) (put_nth s l (pl_lines pl)) (pl_calls pl).
(** The capacity of the channel, server.go:76 *)
Definition chan_size : nat := 24.

(** One step; a panic of the encoder ends the process, the send loop of link does not recover *)
Definition pool_step (env : Env) (pl : pool) (op : pool_op) : res (pool * list pool_event) :=
  match op with
  | BNew e => Ok (Pool (pl_heap pl ++ [e]) (pl_lines pl) (pl_calls pl), [VNew (length (pl_heap pl)) e])
  | BAssign p e =>
      match nth_error (pl_heap pl) p with
      | Some old =>
          (* the type of the body stays *)
          if entity_id old =? entity_id e then Ok (Pool (put_nth p e (pl_heap pl)) (pl_lines pl) (pl_calls pl), [VAssign p e])
          else Ok (pl, [])
      | None => Ok (pl, [])
      end
  | BAccept => Ok (Pool (pl_heap pl) (pl_lines pl ++ [Line 0 0 [] false true]) (pl_calls pl), [])
  | BIcc s icc =>
      match nth_error (pl_lines pl) s with
      | Some l => Ok (set_line pl s (Line (ln_next l) icc (ln_queue l) (ln_closed l) (ln_runs l)), [])
      | None => Ok (pl, [])
      end
  | BClose s =>
      match nth_error (pl_lines pl) s with
      | Some l => Ok (set_line pl s (Line (ln_next l) (ln_icc l) (ln_queue l) true (ln_runs l)), [])
      | None => Ok (pl, [])
      end
  | BMake g s p =>
      match call_of (pl_calls pl) g, nth_error (pl_lines pl) s, nth_error (pl_heap pl) p with
      | None, Some l, Some e =>
          let n := next_serial (ln_next l) in
          let h := Header (entity_id e) 0 (ln_icc l) n None in
          Ok (Pool (pl_heap pl) (put_nth s (Line n (ln_icc l) (ln_queue l) (ln_closed l) (ln_runs l)) (pl_lines pl)) ((g, (s, Post h p)) :: pl_calls pl),
           [VMake g s h p e])
      | _, _, _ => Ok (pl, [])
      end
  | BPut g =>
      match call_of (pl_calls pl) g with
      | Some (s, m) =>
          let pl' := Pool (pl_heap pl) (pl_lines pl) (drop_call (pl_calls pl) g) in
          match nth_error (pl_lines pl) s with
          | Some l =>
              if ln_closed l then Ok (pl', [VRefused g s m])
              else if (length (ln_queue l) =? chan_size)%nat then
                Ok (set_line pl' s (Line (ln_next l) (ln_icc l) (ln_queue l) true (ln_runs l)), [VRefused g s m])
              else Ok (set_line pl' s (Line (ln_next l) (ln_icc l) (ln_queue l ++ [m]) false (ln_runs l)), [VPut g s m])
          | None => Ok (pl', [VRefused g s m])
          end
      | None => Ok (pl, [])
      end
  | BWrite s rnd wr lv =>
      match nth_error (pl_lines pl) s with
      | Some l =>
          match ln_runs l, ln_queue l with
          | true, m :: q =>
              match nth_error (pl_heap pl) (po_ptr m) with
              | Some e =>
                  let stop v := Ok (Pool (put_nth (po_ptr m) v (pl_heap pl)) (put_nth s (Line (ln_next l) (ln_icc l) q true false) (pl_lines pl)) (pl_calls pl),
                                 [VFailed s m v]) in
                  match encode env e with
                  | Ok _ =>
                      match msg_encode env None rnd (Message (po_hdr m) (BEnt e)), wr with
                      | Ok (d, _), None =>
                          Ok (Pool (put_nth (po_ptr m) (encoded e) (pl_heap pl)) (put_nth s (Line (ln_next l) (ln_icc l) q (ln_closed l) true) (pl_lines pl)) (pl_calls pl),
                           [VWire s rnd m d])
                      | Panic, _ => Panic
                      | _, _ => stop (encoded e)
                      end
                  | Panic => Panic
                  | Err _ => stop (if entity_id lv =? entity_id e then lv else e)
                  end
              | None => Ok (pl, [])
              end
          | _, _ => Ok (pl, [])
          end
      | None => Ok (pl, [])
      end
  end.

(** A history and everything that happened, in order *)
Fixpoint pool_run (env : Env) (pl : pool) (ops : list pool_op) : res (pool * list pool_event) :=
  match ops with
  | [] => Ok (pl, [])
  | op :: r => do (p1, e1) <- pool_step env pl op ; do (p2, e2) <- pool_run env p1 r ; Ok (p2, e1 ++ e2)
  end.
(** Nothing yet *)
Definition pool_init : pool := Pool [] [] [].
