(** The public key of a connection, one step per access.

    ProtocolCodec.publicKey, protocol.go:36, is neither guarded by a mutex nor atomic.  The send loop of link loads it twice
    for a message whose header asks for encryption (protocol.go:71 and 74), and any goroutine may store it meanwhile with
    Session.SetPublicKey (session.go:61-67, protocol.go:47-49).  Loads and stores of a pointer are one step here.

    Simplification: the bytes of a message are written in the step that computes them; the write does not fail. *)
From Verif Require Import Base Bits Env Message Codec.

(** Where a goroutine is: elsewhere; before the assignment protocol.go:48; before the condition protocol.go:71; before the call
    protocol.go:74.  [rnd] is the randomness EncryptOAEP will use. *)
Inductive kat := KIdle | KStore (pub : option Z) | KTest (m : message) (rnd : Z) | KUse (m : message) (rnd : Z).
(** The field, protocol.go:36, and the goroutines *)
Record kstate := Kst { k_key : option Z; k_at : nat -> kat }.
(** a goroutine moves on, no line of its own *)
Definition k_go (s : kstate) (i : nat) (p : kat) : kstate := Kst (k_key s) (fun j => if Nat.eqb j i then p else k_at s j).
(** What is observed: the outcome of ProtocolCodec.Send, protocol.go:60-98 *)
Inductive kevent := KWrote (i : nat) (m : message) (r : res bytes).
(** A goroutine calls SetPublicKey, protocol.go:47; or Send, protocol.go:60; or executes its next statement *)
Inductive kop := KPut (i : nat) (pub : option Z) | KSend (i : nat) (m : message) (rnd : Z) | KMove (i : nat).
(** One step; Encode(nil) is Encode(), message.go:32 *)
Definition kstep (env : Env) (s : kstate) (o : kop) : kstate * list kevent :=
  match o with
  | KPut i pub => match k_at s i with KIdle => (k_go s i (KStore pub), []) | _ => (s, []) end
  | KSend i m rnd => match k_at s i with KIdle => (k_go s i (KTest m rnd), []) | _ => (s, []) end
  | KMove i =>
      match k_at s i with
      | KIdle => (s, [])
      | KStore pub => (Kst pub (k_at (k_go s i KIdle)), [])
      | KTest m rnd =>
          match k_key s with
          | None => (k_go s i KIdle, [KWrote i m (do (data, _) <- msg_encode env None rnd m ; Ok data)])
          | Some _ =>
              if is_enable_encrypt (h_prop (m_hdr m)) then (k_go s i (KUse m rnd), [])
              else (k_go s i KIdle, [KWrote i m (do (data, _) <- msg_encode env None rnd m ; Ok data)])
          end
      | KUse m rnd => (k_go s i KIdle, [KWrote i m (do (data, _) <- msg_encode env (k_key s) rnd m ; Ok data)])
      end
  end.
(** A history *)
Fixpoint krun (env : Env) (s : kstate) (ops : list kop) : kstate * list kevent :=
  match ops with
  | [] => (s, [])
  | o :: r => let (s1, e1) := kstep env s o in let (s2, e2) := krun env s1 r in (s2, e1 ++ e2)
  end.
(** NewCodec, protocol.go:20-27: no key *)
Definition kinit : kstate := Kst None (fun _ => KIdle).
