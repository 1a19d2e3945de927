(** The receiving side of the codec over memory.

    Elsewhere bytes are values.  In Go a slice is a window into an array that others may see and change.  Here arrays have addresses,
    and every slice that Receive and Message.Decode make is a window into one of them, so that sharing would show.
    [bytes.Buffer] is modelled as an array and two indices.

    Simplifications: a loop that only reads is a function of what it reads (the scan loops of protocol.go:144-162, the body decoders).
    The slices in the fields of a decoded body are windows into the slice that was decoded (bufio.go:102-104 does not copy); which window
    belongs to which field is left open: whoever has the message may store anywhere in that slice and in its spare capacity (append). *)
From Verif Require Import Base Bits Env Registry Message Codec.

(** Arrays by address, and the first address that is free *)
Record memory := Mem { mm_at : nat -> bytes; mm_next : nat }.
(** a new array: make, or a composite literal *)
Definition alloc (m : memory) (x : bytes) : memory := Mem (fun a => if Nat.eqb a (mm_next m) then x else mm_at m a) (S (mm_next m)).
(** copy(array[i:], bs) where it fits *)
Definition blit (m : memory) (a i : nat) (bs : bytes) : memory :=
  Mem (fun a' => if Nat.eqb a' a then firstn i (mm_at m a) ++ bs ++ skipn (i + length bs) (mm_at m a) else mm_at m a') (mm_next m).
(** A slice: array, start, length, capacity *)
Record slice := Sl { sl_arr : nat; sl_off : nat; sl_len : nat; sl_cap : nat }.
(** what is seen through it *)
Definition view (m : memory) (s : slice) : bytes := firstn (sl_len s) (skipn (sl_off s) (mm_at m (sl_arr s))).
(** s[a:b]; both are in range wherever it is used *)
Definition sub (s : slice) (a b : nat) : slice := Sl (sl_arr s) (sl_off s + a) (b - a) (sl_cap s - a).
(** append(s, b): in place if there is room, else in a new array *)
Definition append1 (m : memory) (s : slice) (b : Z) : memory * slice :=
  if (sl_len s <? sl_cap s)%nat then (blit m (sl_arr s) (sl_off s + sl_len s) [b], Sl (sl_arr s) (sl_off s) (S (sl_len s)) (sl_cap s))
  else (alloc m (view m s ++ [b]), Sl (mm_next m) 0 (S (sl_len s)) (S (sl_len s))).

(** bytes.Buffer of ProtocolCodec.bufferReceiving, protocol.go:39: array, read offset, end *)
Record mbuf := Bf { bf_arr : nat; bf_off : nat; bf_end : nat }.
(** Buffer.Bytes, protocol.go:141 *)
Definition bf_bytes (m : memory) (b : mbuf) : slice :=
  Sl (bf_arr b) (bf_off b) (bf_end b - bf_off b) (length (mm_at m (bf_arr b)) - bf_off b).
(** Buffer.Next, protocol.go:149, 169 and 176 *)
Definition bf_next (b : mbuf) (n : nat) : mbuf := Bf (bf_arr b) (bf_off b + Nat.min n (bf_end b - bf_off b)) (bf_end b).
(** Buffer.Write, protocol.go:116: behind what is there if there is room; at the start if nothing is there; else what is there moves to the start of
    the array, or to a new one.  When it does which depends on the version of Go: [g] says so, with the spare room of the new array. *)
Definition bf_write (m : memory) (b : mbuf) (p : slice) (g : option nat) : memory * mbuf :=
  let n := sl_len p in
  let c := length (mm_at m (bf_arr b)) in
  if (bf_end b + n <=? c)%nat then (blit m (bf_arr b) (bf_end b) (view m p), Bf (bf_arr b) (bf_off b) (bf_end b + n))
  else
    let b := if (bf_end b - bf_off b =? 0)%nat then Bf (bf_arr b) 0 0 else b in
    if (bf_end b + n <=? c)%nat then (blit m (bf_arr b) (bf_end b) (view m p), Bf (bf_arr b) (bf_off b) (bf_end b + n))
    else
      let d := view m (bf_bytes m b) in
      let fresh x := (alloc m (d ++ view m p ++ repeat 0 x), Bf (mm_next m) 0 (length d + n)) in
      match g with
      | Some x => fresh x
      | None =>
          if (length d + n <=? c)%nat then
            let m1 := blit m (bf_arr b) 0 d in (blit m1 (bf_arr b) (length d) (view m1 p), Bf (bf_arr b) 0 (length d + n))
          else fresh O
      end.

(** The unescape loop, message.go:93-120: reads the frame byte by byte, appends to the new buffer *)
Fixpoint m_unescape (fuel : nat) (m : memory) (src : slice) (i : nat) (dst : slice) (cs : Z) : memory * res (slice * Z) :=
  match fuel with
  | O => (m, Err ErrFuel)
  | S f =>
      match nth_error (view m src) i with
      | None => (m, Ok (dst, cs))
      | Some b =>
          if negb (b =? escape_byte) then let '(m', dst') := append1 m dst b in m_unescape f m' src (S i) dst' (Z.lxor cs b)
          else match nth_error (view m src) (S i) with
               | None => (m, Err ErrInvalidMessage)
               | Some c =>
                   if c =? escape_suffix1 then let '(m', dst') := append1 m dst escape_byte in m_unescape f m' src (S (S i)) dst' (Z.lxor cs escape_byte)
                   else if c =? escape_suffix2 then let '(m', dst') := append1 m dst prefix_id in m_unescape f m' src (S (S i)) dst' (Z.lxor cs prefix_id)
                   else (m, Err ErrInvalidMessage)
               end
      end
  end.

(** Separation of the checksum, message.go:79-91: the slice in front of it, and it *)
Definition m_split (m : memory) (s : slice) : res (slice * Z) :=
  let d := view m s in
  let n := sl_len s in
  do sum <- index d (Z.of_nat n - 1) ;
  do prev <- index d (Z.of_nat n - 2) ;
  if negb (prev =? escape_byte) then Ok (sub s 0 (n - 1), sum)
  else if sum =? escape_suffix1 then Ok (sub s 0 (n - 2), escape_byte)
  else if sum =? escape_suffix2 then Ok (sub s 0 (n - 2), prefix_id)
  else Err ErrInvalidMessage.

(** Message.Decode, message.go:68-181: the message and the slice its body was decoded from *)
Definition m_decode (env : Env) (key : option Z) (m : memory) (s : slice) : memory * res (message * slice) :=
  let d := view m s in
  if (sl_len s <? 2)%nat then (m, Err ErrInvalidMessage)
  else
    match (do first <- index d 0 ; do last <- index d (Z.of_nat (sl_len s) - 1) ;
           if negb (first =? prefix_id) || negb (last =? prefix_id) then Err ErrInvalidMessage
           else let s1 := sub s 1 (sl_len s - 1) in if (sl_len s1 =? 0)%nat then Err ErrInvalidMessage else m_split m s1) with
    | Panic => (m, Panic)
    | Err e => (m, Err e)
    | Ok (s2, sum) =>
        let m1 := alloc m (repeat 0 (sl_len s2)) in
        match m_unescape (S (sl_len s2)) m1 s2 0 (Sl (mm_next m) 0 0 (sl_len s2)) 0 with
        | (m2, Panic) => (m2, Panic)
        | (m2, Err e) => (m2, Err e)
        | (m2, Ok (buf, cs)) =>
            if (sl_len buf =? 0)%nat || negb (cs =? sum) then (m2, Err ErrInvalidCheckSum)
            else if Z.of_nat (sl_len buf) <? header_size then (m2, Err ErrInvalidHeader)
            else match hdr_decode (view m2 buf) with
                 | Panic => (m2, Panic)
                 | Err e => (m2, Err e)
                 | Ok h =>
                     let n := if is_enable_packet (h_prop h) then header_size + 4 else header_size in
                     if Z.of_nat (sl_len buf) <? n then (m2, Panic)
                     else
                       let rest := sub buf (Z.to_nat n) (sl_len buf) in
                       if negb (u16 (Z.of_nat (sl_len rest)) =? get_body_size (h_prop h)) then (m2, Ok (Message h BNil, rest))
                       else
                         match (if is_enable_encrypt (h_prop h) then
                                  match key with
                                  | None => (m2, Err ErrDecryptMessageFailed)
                                  | Some priv => match decrypt_oaep env priv (view m2 rest) with
                                                 | Ok p => (alloc m2 p, Ok (Sl (mm_next m2) 0 (length p) (length p)))
                                                 | Err _ => (m2, Err ErrDecryptMessageFailed)
                                                 | Panic => (m2, Panic)
                                                 end
                                  end
                                else (m2, Ok rest)) with
                         | (m3, Panic) => (m3, Panic)
                         | (m3, Err e) => (m3, Err e)
                         | (m3, Ok plain) =>
                             match decode env (h_id h) (view m3 plain) with
                             | Ok (e, _) => (m3, Ok (Message h (BEnt e), plain))
                             | Err _ => (m3, Ok (Message h BNil, plain))
                             | Panic => (m3, Panic)
                             end
                         end
                 end
        end
    end.

(** readFromBuffer, protocol.go:136-185: the result, the slice of the body, memory and buffer afterwards *)
Definition m_try (env : Env) (priv : option Z) (m : memory) (b : mbuf) : scan * option slice * memory * mbuf :=
  let s := bf_bytes m b in
  match view m s with
  | [] => (ScanNone, None, m, b)
  | x :: t =>
      if negb (x =? prefix_id) then (ScanErr ErrNotFoundPrefixID, None, m, bf_next b (find_prefix (x :: t)))
      else
        let fin := S (find_prefix t) in
        if (fin =? sl_len s)%nat then (ScanNone, None, m, b)
        else match m_decode env priv m (sub s 0 (S fin)) with
             | (m', Err e) => (ScanErr e, None, m', bf_next b (S fin))
             | (m', Panic) => (ScanPanic, None, m', b)
             | (m', Ok (msg, v)) => (ScanMsg msg, Some v, m', bf_next b (S fin))
             end
  end.

(** The read loop, protocol.go:110-132; [tmp] is the array of protocol.go:110 *)
Fixpoint m_loop (env : Env) (priv : option Z) (m : memory) (b : mbuf) (tmp : nat) (evs : list (read_event * option nat)) : received * option slice * memory * mbuf :=
  match evs with
  | [] => (Waiting, None, m, b)
  | (RFail e, _) :: _ => (GotErr e, None, m, b)
  | (RData d, g) :: evs' =>
      let m1 := blit m tmp 0 d in
      let '(m2, b2) := bf_write m1 b (Sl tmp 0 (length d) 128) g in
      if (bf_end b2 - bf_off b2 =? 0)%nat then m_loop env priv m2 b2 tmp evs'
      else if 65535 <? Z.of_nat (bf_end b2 - bf_off b2) then (GotErr ErrBodyTooLong, None, m2, b2)
      else match m_try env priv m2 b2 with
           | (ScanMsg x, v, m3, b3) => (GotMsg x, v, m3, b3)
           | (ScanErr e, _, m3, b3) => (GotErr e, None, m3, b3)
           | (ScanPanic, _, m3, b3) => (GotPanic, None, m3, b3)
           | (ScanNone, _, m3, b3) => m_loop env priv m3 b3 tmp evs'
           end
  end.
(** Receive, protocol.go:101-133 *)
Definition m_receive (env : Env) (priv : option Z) (m : memory) (b : mbuf) (evs : list (read_event * option nat)) : received * option slice * memory * mbuf :=
  match m_try env priv m b with
  | (ScanMsg x, v, m', b') => (GotMsg x, v, m', b')
  | (ScanErr e, _, m', b') => (GotErr e, None, m', b')
  | (ScanPanic, _, m', b') => (GotPanic, None, m', b')
  | (ScanNone, _, m', b') => m_loop env priv (alloc m' (repeat 0 128)) b' (mm_next m') evs
  end.

(** A connection: memory, the buffer, and the messages handed over so far *)
Record mconn := Mc { mc_mem : memory; mc_buf : mbuf; mc_got : list (message * slice) }.
(** A call of Receive; or whoever has message [j] stores a byte somewhere in its slice or the room behind it *)
Inductive mop := MReceive (evs : list (read_event * option nat)) | MWrite (j i : nat) (b : Z).
(** One of them, and the result of Receive *)
Definition mstep (env : Env) (priv : option Z) (s : mconn) (o : mop) : mconn * list received :=
  match o with
  | MReceive evs =>
      match m_receive env priv (mc_mem s) (mc_buf s) evs with
      | (GotMsg x, Some v, m, b) => (Mc m b (mc_got s ++ [(x, v)]), [GotMsg x])
      | (r, _, m, b) => (Mc m b (mc_got s), [r])
      end
  | MWrite j i b =>
      match nth_error (mc_got s) j with
      | Some (_, v) => if (i <? sl_cap v)%nat then (Mc (blit (mc_mem s) (sl_arr v) (sl_off v + i) [b]) (mc_buf s) (mc_got s), []) else (s, [])
      | None => (s, [])
      end
  end.
(** A history *)
Fixpoint mrun (env : Env) (priv : option Z) (s : mconn) (ops : list mop) : mconn * list received :=
  match ops with
  | [] => (s, [])
  | o :: r => let '(s1, e1) := mstep env priv s o in let '(s2, e2) := mrun env priv s1 r in (s2, e1 ++ e2)
  end.
(** NewCodec, protocol.go:20-27: an empty buffer; address 0 is the nil slice *)
Definition minit : mconn := Mc (Mem (fun _ => []) 1) (Bf 0 0 0) [].
