(** How often Receive looks at a byte for the delimiter: the functions of Codec.v with a count. *)
From Verif Require Import Base Bits Env Registry Message Codec.

(** The comparisons of one of the loops of protocol.go:144-148 and 157-162. *)
Fixpoint compared (l : bytes) : Z :=
  match l with [] => 0 | b :: t => 1 + (if b =? prefix_id then 0 else compared t) end.
(** readFromBuffer, protocol.go:136-185: with the comparisons at lines 142, 145 and 158 *)
Definition read_from_buffer_c (env : Env) (priv : option Z) (buf : bytes) : scan * bytes * Z :=
  match buf with
  | [] => (ScanNone, [], 0)
  | b :: t =>
      if negb (b =? prefix_id) then (ScanErr ErrNotFoundPrefixID, skipn (find_prefix buf) buf, 1 + compared buf)
      else
        let fin := S (find_prefix t) in let c := 1 + compared t in
        if (fin =? length buf)%nat then (ScanNone, buf, c)
        else match msg_decode env priv (firstn (S fin) buf) with
             | Err e => (ScanErr e, skipn (S fin) buf, c)
             | Panic => (ScanPanic, buf, c)
             | Ok m => (ScanMsg m, skipn (S fin) buf, c)
             end
  end.
(** The read loop, protocol.go:110-132; [n] comparisons were made before. *)
Fixpoint read_loop_c (env : Env) (priv : option Z) (buf : bytes) (evs : list read_event) (n : Z) : received * bytes * list read_event * Z :=
  match evs with
  | [] => (Waiting, buf, [], n)
  | RFail e :: evs' => (GotErr e, buf, evs', n)
  | RData d :: evs' =>
      let buf' := buf ++ d in
      if zlen buf' =? 0 then read_loop_c env priv buf' evs' n
      else if 65535 <? zlen buf' then (GotErr ErrBodyTooLong, buf', evs', n)
      else match read_from_buffer_c env priv buf' with
           | (ScanMsg m, b, c) => (GotMsg m, b, evs', n + c)
           | (ScanErr e, b, c) => (GotErr e, b, evs', n + c)
           | (ScanPanic, b, c) => (GotPanic, b, evs', n + c)
           | (ScanNone, b, c) => read_loop_c env priv b evs' (n + c)
           end
  end.
(** Receive, protocol.go:101-133 *)
Definition receive_c (env : Env) (priv : option Z) (buf : bytes) (evs : list read_event) (n : Z) : received * bytes * list read_event * Z :=
  match read_from_buffer_c env priv buf with
  | (ScanMsg m, b, c) => (GotMsg m, b, evs, n + c)
  | (ScanErr e, b, c) => (GotErr e, b, evs, n + c)
  | (ScanPanic, b, c) => (GotPanic, b, evs, n + c)
  | (ScanNone, b, c) => read_loop_c env priv b evs (n + c)
  end.
(** The receiving side of HandleSession, session_handler.go:34-40 *)
Fixpoint receive_all_c (fuel : nat) (env : Env) (priv : option Z) (buf : bytes) (evs : list read_event) (n : Z) : list message * received * Z :=
  match fuel with
  | O => ([], GotErr ErrFuel, n)
  | S f => match receive_c env priv buf evs n with
           | (GotMsg m, b, evs', n') => let '(ms, r, n'') := receive_all_c f env priv b evs' n' in (m :: ms, r, n'')
           | (r, _, _, n') => ([], r, n')
           end
  end.
