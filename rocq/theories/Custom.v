(** Types registered by the application: protocol.Register
    (protocol/register.go:339-341) and extra.Register (protocol/extra/register.go:74-76).
    Message.v, Registry.v and EntTerm.v have the built-in tables only; the functions
    here are the same with the tables as they are after some calls of Register.

    Simplifications: the creator and the Decode (or DecodePacket) of the value it
    makes are one function of the bytes; of the branch of session_handler.go for
    uploads nothing is modelled, so AutoMergePacket is off; Register calls are made
    before the messages (Go's maps do not allow them at the same time). *)
From Verif Require Import Base Bits Env EntTerm EntPlat Registry Message Session.

(** The values of the application's types: MsgID, Encode, the value after Encode, and whether
    reflect.Value.IsNil accepts it (pointers do, structures do not) *)
Record customs := Customs { cu : Type; cu_id : cu -> Z; cu_enc : cu -> res bytes; cu_after : cu -> cu; cu_nillable : cu -> bool }.
(** protocol.Entity, protocol/entity.go:6-10: a value of the package or of the application *)
Inductive any (C : customs) := AEnt (e : entity) | ACus (v : cu C).
Arguments AEnt {C}. Arguments ACus {C}.
(** A call of Register: the ID, and what creating and decoding does *)
Definition registration (C : customs) : Type := Z * (bytes -> res (any C)).
(** entityMapper after the calls of Register, latest first; the built-in entries are those of [decode] *)
Definition table {C} (calls : list (registration C)) : list (registration C) := fold_left (fun m c => c :: m) calls [].
(** entityMapper[typ] *)
Fixpoint lookup {C} (l : list (registration C)) (typ : Z) : option (bytes -> res (any C)) :=
  match l with
  | [] => None
  | (i, f) :: t => if i =? typ then Some f else lookup t typ
  end.
(** Message.decode, protocol/message.go:182-203 *)
Definition any_decode {C} (env : Env) (calls : list (registration C)) (typ : Z) (data : bytes) : res (any C) :=
  match lookup (table calls) typ with
  | Some f => f data
  | None => do (e, _) <- decode env typ data ; Ok (AEnt e)
  end.

(** Message, protocol/message.go:14-17; [None] is a nil Body *)
Record amessage (C : customs) := AMessage { am_hdr : header; am_body : option (any C) }.
Arguments AMessage {C}. Arguments am_hdr {C}. Arguments am_body {C}.
(** Entity.MsgID *)
Definition any_id {C} (a : any C) : Z := match a with AEnt e => entity_id e | ACus v => cu_id C v end.
(** Entity.Encode *)
Definition any_enc {C} (env : Env) (a : any C) : res bytes := match a with AEnt e => encode env e | ACus v => cu_enc C v end.
(** The value after Encode *)
Definition any_after {C} (a : any C) : any C := match a with AEnt e => AEnt (encoded e) | ACus v => ACus (cu_after C v) end.

(** reflect.ValueOf(body).IsNil() on a body that is not nil: panics on a value that is not a pointer *)
Definition any_pointer {C} (a : any C) : bool := match a with AEnt _ => true | ACus v => cu_nillable C v end.
(** Message.Encode, protocol/message.go:20-65; [reflect.ValueOf(message.Body).IsNil()] panics on a Body
    that is not a pointer, [message.Body.MsgID()] on a nil Body *)
Definition am_encode {C} (env : Env) (key : option Z) (rnd : Z) (m : amessage C) : res (bytes * amessage C) :=
  match am_body m with
  | None => Panic
  | Some a =>
      if negb (any_pointer a) then Panic else
      do raw <- any_enc env a ;
      do (bdy, h0) <-
        match key with
        | Some pub => do enc <- encrypt_oaep env pub rnd raw ; Ok (enc, set_prop (am_hdr m) (enable_encrypt (h_prop (am_hdr m))))
        | None => Ok (raw, am_hdr m)
        end ;
      let cs1 := checksum 0 bdy in
      do prop <- set_body_size (h_prop h0) (u16 (zlen bdy)) ;
      do (hb, h2) <- hdr_encode (set_prop (set_id h0 (any_id a)) prop) ;
      let cs2 := checksum cs1 hb in
      Ok ([prefix_id] ++ escape hb ++ escape bdy ++ escape [cs2] ++ [prefix_id], AMessage h2 (Some (any_after a)))
  end.
(** Body part of Message.Decode, protocol/message.go:142-178 *)
Definition any_body {C} (env : Env) (calls : list (registration C)) (key : option Z) (h : header) (buf : bytes) : res (option (any C)) :=
  if negb (u16 (zlen buf) =? get_body_size (h_prop h)) then Ok None
  else
    do plain <-
      (if is_enable_encrypt (h_prop h) then
         match key with
         | None => Err ErrDecryptMessageFailed
         | Some priv => match decrypt_oaep env priv buf with
                        | Ok p => Ok p
                        | Err _ => Err ErrDecryptMessageFailed
                        | Panic => Panic
                        end
         end
       else Ok buf) ;
    match any_decode env calls (h_id h) plain with
    | Ok a => Ok (Some a)
    | Err _ => Ok None
    | Panic => Panic
    end.
(** Message.Decode, protocol/message.go:68-181 *)
Definition am_decode {C} (env : Env) (calls : list (registration C)) (key : option Z) (data : bytes) : res (amessage C) :=
  do buf <- unframe data ;
  if zlen buf <? header_size then Err ErrInvalidHeader
  else
    do h <- hdr_decode buf ;
    do rest <- from buf (if is_enable_packet (h_prop h) then header_size + 4 else header_size) ;
    do b <- any_body env calls key h rest ;
    Ok (AMessage h b).

(** A message of the package *)
Definition of_message {C} (m : message) : amessage C := AMessage (m_hdr m) (match m_body m with BEnt e => Some (AEnt e) | _ => None end).
(** The message IDs of the switch in Session.message, session.go:152-177 *)
Definition answer_ids : list Z := [1; 260; 513; 770; 1280; 1792; 2050; 2053].
(** The switch, session.go:151-177: a type assertion panics when the body has another type *)
Definition any_serial {C} (m : amessage C) : res Z :=
  match am_body m with
  | Some (AEnt e) => reply_serial (Message (am_hdr m) (BEnt e))
  | Some (ACus _) => if existsb (Z.eqb (h_id (am_hdr m))) answer_ids then Panic else Ok 0
  | None => Panic
  end.
(** What HandleSession does with a message before it is dispatched, session_handler.go:43-52: [None] if it is answered
    with "unsupported", otherwise the serial number it answers to (0 if none).  [reflect.ValueOf(body).IsNil()] panics
    on a body that is not a pointer. *)
Definition inspect {C} (m : amessage C) : res (option Z) :=
  match am_body m with
  | None => Ok None
  | Some a => if any_pointer a then do n <- any_serial m ; Ok (Some n) else Panic
  end.

(** ** Extra items of position reports *)

(** extra.Entity, protocol/extra/extra.go:10-15, of the application: ID, Data, and whether
    reflect.Value.IsNil accepts it *)
Record items := Items { it : Type; it_id : it -> Z; it_data : it -> bytes; it_nillable : it -> bool }.
(** An item: of the package or of the application *)
Inductive item (I : items) := IOwn (e : extra) | ICus (v : it I).
Arguments IOwn {I}. Arguments ICus {I}.
(** A call of extra.Register: creating and decoding gives the item and the count *)
Definition item_registration (I : items) : Type := Z * (bytes -> res (it I * Z)).
(** entityMapper of the package extra, latest first *)
Definition item_table {I} (calls : list (item_registration I)) : list (item_registration I) := fold_left (fun m c => c :: m) calls [].
(** entityMapper[typ] *)
Fixpoint item_lookup {I} (l : list (item_registration I)) (typ : Z) : option (bytes -> res (it I * Z)) :=
  match l with
  | [] => None
  | (i, f) :: t => if i =? typ then Some f else item_lookup t typ
  end.
(** extra.Decode, protocol/extra/extra.go:18-34.  A decoded item of the package keeps an empty [serialized] field. *)
Definition item_decode {I} (calls : list (item_registration I)) (typ : Z) (data : bytes) : res (item I * Z) :=
  match item_lookup (item_table calls) typ with
  | Some f => do (v, n) <- f data ; Ok (ICus v, n)
  | None => do (v, n) <- extra_decode typ data ; Ok (IOwn (Extra v []), n)
  end.
(** t808_0x0200.go:144-152 for one item: nil items are skipped, [reflect.ValueOf(ext).IsNil()] panics on an item
    that is not a pointer, [byte(len(data))] truncates *)
Definition write_item {I} (x : option (item I)) : res bytes :=
  match x with
  | None => Ok []
  | Some (IOwn e) => Ok (enc_extra (Some e))
  | Some (ICus v) => if it_nillable I v then Ok (it_id I v :: u8 (zlen (it_data I v)) :: it_data I v) else Panic
  end.
(** The loop over the extras in Encode, t808_0x0200.go:143-153 *)
Fixpoint write_items {I} (l : list (option (item I))) : res bytes :=
  match l with
  | [] => Ok []
  | x :: t => do w <- write_item x ; do r <- write_items t ; Ok (w ++ r)
  end.
(** t808_0x0200.go:220-246; [fuel] bounds the number of items *)
Fixpoint read_items {I} (calls : list (item_registration I)) (fuel : nat) (buf : bytes) : res (list (item I)) :=
  match fuel with
  | O => Err ErrFuel
  | S f =>
      match buf with
      | id :: len :: rest =>
          if zlen rest <? len then Err ErrInvalidExtraLength
          else let d := firstn (Z.to_nat len) rest in
               let rest' := skipn (Z.to_nat len) rest in
               match item_decode calls id d with
               | Err ErrTypeNotRegistered => read_items calls f rest'
               | Err e => Err e
               | Panic => Panic
               | Ok (v, count) =>
                   if negb (count =? len) then Err ErrInvalidExtraLength
                   else do xs <- read_items calls f rest' ; Ok (v :: xs)
               end
      | _ => Ok []
      end
  end.
(** The loop over the extras in Decode, t808_0x0200.go:217-246 *)
Definition read_all_items {I} (calls : list (item_registration I)) (buf : bytes) : res (list (item I)) := read_items calls (S (length buf)) buf.
