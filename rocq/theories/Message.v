(** protocol/header.go, protocol/message.go, OAEP chunking of protocol/helpers.go. *)
From Verif Require Import Base Bits Bcd Env Registry.

(** Constants of protocol/const.go:3-18 *)
Definition prefix_id : Z := 126.      (* 0x7e *)
Definition escape_byte : Z := 125.    (* 0x7d *)
Definition escape_suffix1 : Z := 1.
(** protocol/const.go:14 *)
Definition escape_suffix2 : Z := 2.
(** protocol/const.go:17 *)
Definition header_size : Z := 12.

(** Header, protocol/header.go:9-21; [h_packet] is the pair (Sum, Seq) *)
Record header := Header {
  h_id : Z; h_prop : Z; h_icc : Z; h_serial : Z; h_packet : option (Z * Z) }.

(** assignment to Header.Property, protocol/message.go:33 and 48 *)
Definition set_prop (h : header) (p : Z) : header :=
  Header (h_id h) p (h_icc h) (h_serial h) (h_packet h).
(** assignment to Header.MsgID, protocol/message.go:47 *)
Definition set_id (h : header) (i : Z) : header :=
  Header i (h_prop h) (h_icc h) (h_serial h) (h_packet h).

(** Header.Encode, protocol/header.go:24-48: the bytes and the header after
    enablePacket; a packet flag without packet dereferences nil (line 44). *)
Definition hdr_encode (h : header) : res (bytes * header) :=
  let prop := match h_packet h with Some _ => enable_packet (h_prop h) | None => h_prop h end in
  let base := concat [w_u16 (h_id h); w_u16 prop; string_to_bcd_n (format_uint (h_icc h)) 6;
                      w_u16 (h_serial h)] in
  if is_enable_packet prop then
    match h_packet h with
    | None => Panic
    | Some (sum, seq) => Ok (base ++ w_u16 sum ++ w_u16 seq, set_prop h prop)
    end
  else Ok (base, set_prop h prop).

(** Header.Decode, protocol/header.go:51-108, on a fresh header *)
Definition hdr_decode (data : bytes) : res header :=
  if zlen data <? header_size then Err ErrInvalidHeader
  else
    do (h, _) <-
      (rd id <- rmap_err ErrInvalidHeader r_u16 ;
       rd prop <- rmap_err ErrInvalidHeader r_u16 ;
       rd temp <- rmap_err ErrInvalidHeader (r_bytes 6) ;
       rd icc <- rlift (parse_uint (bcd_to_string temp)) ;
       rd serial <- rmap_err ErrInvalidHeader r_u16 ;
       if is_enable_packet prop then
         rd sum <- r_u16 ; rd seq <- r_u16 ;
         rret (Header id prop icc serial (Some (sum, seq)))
       else rret (Header id prop icc serial None)) data ;
    Ok h.

(** bytesSplit, protocol/helpers.go:42-53; a limit of 0 divides by zero at line
    44 and a negative limit slices with a negative bound: both panic. *)
Fixpoint split_loop (fuel : nat) (data : bytes) (limit : nat) : res (list bytes) :=
  match fuel with
  | O => Err ErrFuel
  | S f =>
      if (limit <=? length data)%nat then
        do cs <- split_loop f (skipn limit data) limit ; Ok (firstn limit data :: cs)
      else match data with [] => Ok [] | _ => Ok [data] end
  end.
(** bytesSplit, protocol/helpers.go:42-53; a limit <= 0 panics *)
Definition bytes_split (data : bytes) (limit : Z) : res (list bytes) :=
  if limit <=? 0 then Panic
  else split_loop (S (length data)) data (Z.to_nat limit).

(** the loop of EncryptOAEP, protocol/helpers.go:17-23 *)
Fixpoint enc_chunks (env : Env) (pub rnd : Z) (cs : list bytes) : res bytes :=
  match cs with
  | [] => Ok []
  | c :: t => match oaep_enc env pub rnd c with
              | None => Err ErrCrypt
              | Some x => do r <- enc_chunks env pub (rnd + 1) t ; Ok (x ++ r)
              end
  end.
(** EncryptOAEP with SHA-1 (hash size 20), protocol/helpers.go:14-25.  [rnd]
    numbers the random strings drawn. *)
Definition encrypt_oaep (env : Env) (pub rnd : Z) (msg : bytes) : res bytes :=
  do cs <- bytes_split msg (key_size env pub - 2 * 20 - 2) ; enc_chunks env pub rnd cs.

(** the loop of DecryptOAEP, protocol/helpers.go:31-37 *)
Fixpoint dec_chunks (env : Env) (priv : Z) (cs : list bytes) : res bytes :=
  match cs with
  | [] => Ok []
  | c :: t => match oaep_dec env priv c with
              | None => Err ErrCrypt
              | Some x => do r <- dec_chunks env priv t ; Ok (x ++ r)
              end
  end.
(** DecryptOAEP, protocol/helpers.go:28-39 *)
Definition decrypt_oaep (env : Env) (priv : Z) (ct : bytes) : res bytes :=
  do cs <- bytes_split ct (key_size env priv) ; dec_chunks env priv cs.

(** Message.Body: nil interface, typed nil pointer of some built-in type, or an entity *)
Inductive body := BNil | BNilPtr (id : Z) | BEnt (e : entity).
(** Message, protocol/message.go:14-17 *)
Record message := Message { m_hdr : header; m_body : body }.

(** Message.computeChecksum, protocol/message.go:222-232 (the count only sizes a buffer) *)
Definition checksum (acc : Z) (data : bytes) : Z := fold_left Z.lxor data acc.

(** Message.write, protocol/message.go:206-219 *)
Definition escape1 (b : Z) : bytes :=
  if b =? prefix_id then [escape_byte; escape_suffix2]
  else if b =? escape_byte then [escape_byte; escape_suffix1]
  else [b].
(** Message.write, protocol/message.go:206-219 *)
Definition escape (data : bytes) : bytes := concat (map escape1 data).

(** Body part of Message.Encode, protocol/message.go:26-43: body bytes, header
    and body afterwards *)
Definition enc_body (env : Env) (key : option Z) (rnd : Z) (m : message) : res (bytes * header * body) :=
  match m_body m with
  | BEnt e =>
      do raw <- encode env e ;
      match key with
      | Some pub =>
          do enc <- encrypt_oaep env pub rnd raw ;
          Ok (enc, set_prop (m_hdr m) (enable_encrypt (h_prop (m_hdr m))), BEnt (encoded e))
      | None => Ok (raw, m_hdr m, BEnt (encoded e))
      end
  | b => Ok ([], m_hdr m, b)
  end.

(** [message.Body.MsgID()], protocol/message.go:47: a nil Body panics *)
Definition body_id (b : body) : res Z :=
  match b with BNil => Panic | BNilPtr i => Ok i | BEnt e => Ok (entity_id e) end.

(** Message.Encode, protocol/message.go:20-65: bytes and the modified message.
    The length check is made on [uint16(len(body))]. *)
Definition msg_encode (env : Env) (key : option Z) (rnd : Z) (m : message) : res (bytes * message) :=
  do (bdy, h0, b') <- enc_body env key rnd m ;
  let cs1 := checksum 0 bdy in
  do id <- body_id (m_body m) ;
  do prop <- set_body_size (h_prop h0) (u16 (zlen bdy)) ;
  do (hb, h2) <- hdr_encode (set_prop (set_id h0 id) prop) ;
  let cs2 := checksum cs1 hb in
  Ok ([prefix_id] ++ escape hb ++ escape bdy ++ escape [cs2] ++ [prefix_id],
      Message h2 b').

(** The unescape loop, protocol/message.go:93-120, with its running checksum and buffer *)
Fixpoint unescape (data : bytes) (cs : Z) (buf : bytes) : res (Z * bytes) :=
  match data with
  | [] => Ok (cs, rev buf)
  | b :: t =>
      if negb (b =? escape_byte) then unescape t (Z.lxor cs b) (b :: buf)
      else match t with
           | [] => Err ErrInvalidMessage
           | c :: t' =>
               if c =? escape_suffix1 then unescape t' (Z.lxor cs escape_byte) (escape_byte :: buf)
               else if c =? escape_suffix2 then unescape t' (Z.lxor cs prefix_id) (prefix_id :: buf)
               else Err ErrInvalidMessage
           end
  end.

(** Go slice element: out of range panics *)
Definition index (l : bytes) (i : Z) : res Z :=
  if (i <? 0) || (zlen l <=? i) then Panic
  else match nth_error l (Z.to_nat i) with Some b => Ok b | None => Panic end.
(** Go [l[:n]] *)
Definition upto (l : bytes) (n : Z) : res bytes :=
  if (n <? 0) || (zlen l <? n) then Panic else Ok (firstn (Z.to_nat n) l).
(** Go [l[n:]] *)
Definition from (l : bytes) (n : Z) : res bytes :=
  if (n <? 0) || (zlen l <? n) then Panic else Ok (skipn (Z.to_nat n) l).

(** Separation of the checksum, protocol/message.go:79-91: the data in front
    of the checksum and the checksum. *)
Definition split_checksum (data : bytes) : res (bytes * Z) :=
  let n := zlen data in
  do sum <- index data (n - 1) ;
  do prev <- index data (n - 2) ;
  if negb (prev =? escape_byte) then
    do d <- upto data (n - 1) ; Ok (d, sum)
  else if sum =? escape_suffix1 then
    do d <- upto data (n - 2) ; Ok (d, escape_byte)
  else if sum =? escape_suffix2 then
    do d <- upto data (n - 2) ; Ok (d, prefix_id)
  else Err ErrInvalidMessage.

(** Frame to payload, protocol/message.go:69-125 *)
Definition unframe (data : bytes) : res bytes :=
  if zlen data <? 2 then Err ErrInvalidMessage
  else
    do first <- index data 0 ;
    do last <- index data (zlen data - 1) ;
    if negb (first =? prefix_id) || negb (last =? prefix_id) then Err ErrInvalidMessage
    else
      do d0 <- upto data (zlen data - 1) ;
      do d1 <- from d0 1 ;
      if zlen d1 =? 0 then Err ErrInvalidMessage
      else
        do (d2, sum) <- split_checksum d1 ;
        do (cs, buf) <- unescape d2 0 [] ;
        if (zlen buf =? 0) || negb (cs =? sum) then Err ErrInvalidCheckSum
        else Ok buf.

(** Body part of Message.Decode, protocol/message.go:142-178: [Ok b] with
    [b = BNil] when the length mismatches or the entity does not decode
    (both only logged). *)
Definition decode_body (env : Env) (key : option Z) (h : header) (buf : bytes) : res body :=
  if negb (u16 (zlen buf) =? get_body_size (h_prop h)) then Ok BNil
  else
    do plain <-
      (if is_enable_encrypt (h_prop h) then
         match key with
         | None => Err ErrDecryptMessageFailed
         | Some priv => match decrypt_oaep env priv buf with
                        | Ok p => Ok p
                        | Err _ => Err ErrDecryptMessageFailed
                        | Panic => Panic
                        end
         end
       else Ok buf) ;
    match decode env (h_id h) plain with
    | Ok (e, _) => Ok (BEnt e)
    | Err _ => Ok BNil
    | Panic => Panic
    end.

(** Message.Decode, protocol/message.go:68-181, into a fresh Message *)
Definition msg_decode (env : Env) (key : option Z) (data : bytes) : res message :=
  do buf <- unframe data ;
  if zlen buf <? header_size then Err ErrInvalidHeader
  else
    do h <- hdr_decode buf ;
    do rest <- from buf (if is_enable_packet (h_prop h) then header_size + 4 else header_size) ;
    do b <- decode_body env key h rest ;
    Ok (Message h b).

(** Message.Decode, protocol/message.go:68-181, into a Message that was used before.
    The first component is the Message afterwards, the second the error
    returned: message.Header is assigned only at line 179 and message.Body
    only at line 170; all other paths leave the old value. *)
Definition msg_decode_into (env : Env) (key : option Z) (m : message) (data : bytes) : res (message * option goerr) :=
  match unframe data with
  | Panic => Panic
  | Err e => Ok (m, Some e)
  | Ok buf =>
    if zlen buf <? header_size then Ok (m, Some ErrInvalidHeader)
    else
      match hdr_decode buf with
      | Panic => Panic
      | Err e => Ok (m, Some e)
      | Ok h =>
        match from buf (if is_enable_packet (h_prop h) then header_size + 4 else header_size) with
        | Panic => Panic
        | Err e => Ok (m, Some e)
        | Ok rest =>
          if negb (u16 (zlen rest) =? get_body_size (h_prop h)) then Ok (Message h (m_body m), None)
          else
            match (if is_enable_encrypt (h_prop h) then
                     match key with
                     | None => Err ErrDecryptMessageFailed
                     | Some priv => decrypt_oaep env priv rest
                     end
                   else Ok rest) with
            | Panic => Panic
            | Err _ => Ok (m, Some ErrDecryptMessageFailed)
            | Ok plain =>
              match decode env (h_id h) plain with
              | Panic => Panic
              | Err _ => Ok (Message h (m_body m), None)
              | Ok (e, _) => Ok (Message h (BEnt e), None)
              end
            end
        end
      end
  end.
