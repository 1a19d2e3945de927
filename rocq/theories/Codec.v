(** protocol.go: the link codec.  Logging is not modelled. *)
From Verif Require Import Base Bits Env Registry Message.

(** What one [io.ReadAtLeast(codec.r, buffer[:], 1)] returns (protocol.go:112):
    some bytes (at most 128 of them, a hypothesis of the theorems) or an error. *)
Inductive read_event := RData (d : bytes) | RFail (e : goerr).

(** Result of Receive: a message, an error, a panic inside Message.Decode, or
    still waiting for the connection when the events are used up. *)
Inductive received := GotMsg (m : message) | GotErr (e : goerr) | GotPanic | Waiting.

(** The scan loops of protocol.go:144-148 and 157-162: the number of bytes in
    front of the first delimiter, or the length if there is none. *)
Fixpoint find_prefix (l : bytes) : nat :=
  match l with
  | [] => O
  | b :: t => if b =? prefix_id then O else S (find_prefix t)
  end.

(** Result of readFromBuffer: (message, ok, err) *)
Inductive scan := ScanMsg (m : message) | ScanErr (e : goerr) | ScanNone | ScanPanic.

(** readFromBuffer, protocol.go:136-185: result and the buffer afterwards *)
Definition read_from_buffer (env : Env) (priv : option Z) (buf : bytes) : scan * bytes :=
  match buf with
  | [] => (ScanNone, [])
  | b :: t =>
      if negb (b =? prefix_id) then (ScanErr ErrNotFoundPrefixID, skipn (find_prefix buf) buf)
      else
        let fin := S (find_prefix t) in
        if (fin =? length buf)%nat then (ScanNone, buf)
        else match msg_decode env priv (firstn (S fin) buf) with
             | Err e => (ScanErr e, skipn (S fin) buf)
             | Panic => (ScanPanic, buf)
             | Ok m => (ScanMsg m, skipn (S fin) buf)
             end
  end.

(** The read loop, protocol.go:110-132: result, buffer and unused events *)
Fixpoint read_loop (env : Env) (priv : option Z) (buf : bytes) (evs : list read_event)
  : received * bytes * list read_event :=
  match evs with
  | [] => (Waiting, buf, [])
  | RFail e :: evs' => (GotErr e, buf, evs')
  | RData d :: evs' =>
      let buf' := buf ++ d in
      if zlen buf' =? 0 then read_loop env priv buf' evs'
      else if 65535 <? zlen buf' then (GotErr ErrBodyTooLong, buf', evs')
      else match read_from_buffer env priv buf' with
           | (ScanMsg m, b) => (GotMsg m, b, evs')
           | (ScanErr e, b) => (GotErr e, b, evs')
           | (ScanPanic, b) => (GotPanic, b, evs')
           | (ScanNone, b) => read_loop env priv b evs'
           end
  end.

(** Receive, protocol.go:101-133 *)
Definition receive (env : Env) (priv : option Z) (buf : bytes) (evs : list read_event)
  : received * bytes * list read_event :=
  match read_from_buffer env priv buf with
  | (ScanMsg m, b) => (GotMsg m, b, evs)
  | (ScanErr e, b) => (GotErr e, b, evs)
  | (ScanPanic, b) => (GotPanic, b, evs)
  | (ScanNone, b) => read_loop env priv b evs
  end.

(** The receiving side of HandleSession, session_handler.go:34-40: Receive
    until the first error; the messages delivered and how it ended. *)
Fixpoint receive_all (fuel : nat) (env : Env) (priv : option Z) (buf : bytes) (evs : list read_event)
  : list message * received :=
  match fuel with
  | O => ([], GotErr ErrFuel)
  | S f => match receive env priv buf evs with
           | (GotMsg m, b, evs') =>
               let '(ms, r) := receive_all f env priv b evs' in (m :: ms, r)
           | (r, _, _) => ([], r)
           end
  end.

(** Send, protocol.go:60-98: the bytes written to the connection.  [wr] is the
    error of the Write, if any.  The message is a copy of the caller's. *)
Definition codec_send (env : Env) (pub : option Z) (rnd : Z) (wr : option goerr) (m : message)
  : res bytes :=
  let key := match pub with
             | Some k => if is_enable_encrypt (h_prop (m_hdr m)) then Some k else None
             | None => None
             end in
  do (data, _) <- msg_encode env key rnd m ;
  match wr with Some e => Err e | None => Ok data end.
