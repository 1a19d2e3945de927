(** What a receiver hears in a byte stream, independently of how the stream is
    cut into reads and of the buffering code. *)
From Verif Require Import Base Env Registry Message Codec SpecGeo SpecEntity SpecMsg.

(** The runs between delimiters: [k] delimiters separate [k + 1] runs. *)
Fixpoint runs (s : bytes) : list bytes :=
  match s with
  | [] => [[]]
  | b :: t => if b =? 126 then [] :: runs t
              else match runs t with
                   | r :: l => (b :: r) :: l
                   | [] => [[b]]
                   end
  end.
(** Delimiters open and close frames in turn: every second run is inside a frame. *)
Fixpoint insides (l : list bytes) : list bytes :=
  match l with
  | _ :: f :: ((_ :: _) as r) => f :: insides r
  | _ => []
  end.
(** The frame around a run. *)
Definition around (f : bytes) : bytes := [126] ++ f ++ [126].
(** All messages in a stream, for a receiver that goes on after errors. *)
Definition heard (env : Env) (key : option Z) (s : bytes) : list message :=
  flat_map (fun f => match msg_decode env key (around f) with Ok m => [m] | _ => [] end) (insides (runs s)).
(** No run exceeds the buffer limit less one read, and no frame crashes. *)
Definition manageable (s : bytes) : Prop := Forall (fun f => zlen f <= 65406) (runs s).
Definition harmless (env : Env) (key : option Z) (s : bytes) : Prop :=
  Forall (fun f => msg_decode env key (around f) <> Panic) (insides (runs s)).

(** The messages before the first error and how it ends, for a receiver that
    stops there; [fin] is what happens when the stream is used up. *)
Fixpoint until_error (env : Env) (key : option Z) (fin : received) (l : list bytes) : list message * received :=
  match l with
  | [] => ([], fin)
  | s0 :: l1 =>
    match s0 with
    | _ :: _ => ([], GotErr ErrNotFoundPrefixID)
    | [] =>
      match l1 with
      | f :: ((_ :: _) as r) =>
        match msg_decode env key (around f) with
        | Ok m => let '(ms, e) := until_error env key fin r in (m :: ms, e)
        | Err e => ([], GotErr e)
        | Panic => ([], GotPanic)
        end
      | _ => ([], fin)
      end
    end
  end.
(** One read yields at most 128 bytes (the array of Receive). *)
Definition reads_ok (cs : list bytes) : Prop := Forall (fun d => zlen d <= 128) cs.
(** Receive is called until the reads are used up; errors do not stop the caller. *)
Inductive calls (env : Env) (key : option Z) : bytes -> list read_event -> list message -> Prop :=
| calls_wait buf evs b evs' : receive env key buf evs = (Waiting, b, evs') -> calls env key buf evs []
| calls_msg buf evs m b evs' ms : receive env key buf evs = (GotMsg m, b, evs') -> calls env key b evs' ms -> calls env key buf evs (m :: ms)
| calls_err buf evs e b evs' ms : receive env key buf evs = (GotErr e, b, evs') -> calls env key b evs' ms -> calls env key buf evs ms.
(** The buffers a session goes through: Receive is called again after a message only. *)
Inductive buffered (env : Env) (key : option Z) : bytes -> Prop :=
| buffered_start : buffered env key []
| buffered_next b evs m b' evs' : buffered env key b -> receive env key b evs = (GotMsg m, b', evs') -> buffered env key b'.
(** Number of delimiters. *)
Definition delims (s : bytes) : nat := count_occ Z.eq_dec s 126.

(** A message that fits the wire and how it arrives: in plain text, or encrypted
    when its flag is set and the sender has the receiver's public key. *)
Inductive travels (env : Env) (pub priv : option Z) (m r : message) : Prop :=
| travels_plain e raw :
    m_body m = BEnt e -> encode env e = Ok raw -> wf env e -> boundary e = false -> hdr_fits (m_hdr m) ->
    Z.testbit (h_prop (m_hdr m)) 10 = false -> zlen raw <= 1023 ->
    r = Message (hdr_arrives (m_hdr m) (entity_id e) (zlen raw)) (BEnt (sent env e)) ->
    travels env pub priv m r
| travels_secret e raw k k' :
    m_body m = BEnt e -> encode env e = Ok raw -> wf env e -> boundary e = false -> hdr_fits (m_hdr m) ->
    Z.testbit (h_prop (m_hdr m)) 10 = true -> pub = Some k -> priv = Some k' -> rsa_pair env k k' ->
    cipher_len env k (zlen raw) <= 1023 ->
    r = Message (hdr_arrives (encrypted (m_hdr m)) (entity_id e) (cipher_len env k (zlen raw))) (BEnt (sent env e)) ->
    travels env pub priv m r.
(** What happens when the reads are used up: more may come, or the connection fails. *)
Definition ending (tail : list read_event) : received :=
  match tail with [] => Waiting | RFail e :: _ => GotErr e | RData _ :: _ => Waiting end.
Definition quiet_tail (tail : list read_event) : Prop := match tail with RData _ :: _ => False | _ => True end.
(** The buffers of a caller that goes on after errors. *)
Inductive buffered_any (env : Env) (key : option Z) : bytes -> Prop :=
| any_start : buffered_any env key []
| any_next b evs r b' evs' : buffered_any env key b -> Forall (fun ev => match ev with RData d => zlen d <= 128 | _ => True end) evs ->
    receive env key b evs = (r, b', evs') -> buffered_any env key b'.
(** Reads of a session: at most 128 bytes each; the connection itself does not
    report the size error. *)
Definition events_ok (evs : list read_event) : Prop :=
  Forall (fun ev => match ev with RData d => zlen d <= 128 | RFail e => e <> ErrBodyTooLong end) evs.
(** The interior of a valid frame of acceptable size and its message. *)
Definition good_frame (env : Env) (key : option Z) (f : bytes) (m : message) : Prop :=
  ~ In 126 f /\ zlen f <= 65406 /\ msg_decode env key (around f) = Ok m.
