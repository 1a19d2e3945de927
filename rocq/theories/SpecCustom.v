(** Registered types, specification. *)
From Verif Require Import Base Env EntTerm Registry Message SpecEntity SpecBody Custom.

(** The call of Register that decides about an ID: the last one for it *)
Definition last_call {A} (calls : list (Z * A)) (id : Z) (f : A) : Prop := exists a b, calls = a ++ (id, f) :: b /\ ~ In id (map fst b).
(** No call for it *)
Definition unregistered {A} (calls : list (Z * A)) (id : Z) : Prop := ~ In id (map fst calls).
(** The answers of the standard that carry the number of the request: the server reads it from their fields. *)
Definition answer_types : list Z := [0x0001; 0x0104; 0x0201; 0x0302; 0x0500; 0x0700; 0x0802; 0x0805].
(** Registered types that cannot crash the server: decoding does not panic and makes pointers; the answers whose
    fields the server reads keep their types. *)
Definition harmless {C} (calls : list (registration C)) : Prop := forall id f d, last_call calls id f -> bytes_ok d ->
  match f d with
  | Ok (ACus v) => cu_nillable C v = true /\ ~ In id answer_types
  | Ok (AEnt e) => In id answer_types -> entity_id e = id
  | Err _ => True
  | Panic => False
  end.
(** An extra item that is sent and what arrives: nothing for nil, the value of an item of the package (whose ID was not
    registered anew), what the application's own type makes of its bytes, nothing for an item of a type the receiver
    does not know. *)
Inductive item_arrives {I} (calls : list (item_registration I)) : option (item I) -> list (item I) -> Prop :=
| ia_nil : item_arrives calls None []
| ia_own v : extra_val_ok v -> unregistered calls (extra_id v) -> item_arrives calls (Some (IOwn (new_extra v))) [IOwn (Extra v [])]
| ia_custom v f w : it_nillable I v = true -> last_call calls (it_id I v) f -> zlen (it_data I v) <= 255 -> f (it_data I v) = Ok (w, zlen (it_data I v)) ->
    item_arrives calls (Some (ICus v)) [ICus w]
| ia_unknown v : it_nillable I v = true -> unregistered calls (it_id I v) -> ~ known_id (it_id I v) -> zlen (it_data I v) <= 255 ->
    item_arrives calls (Some (ICus v)) [].
(** A block of the report, number and bytes, and the items it stands for: the value of the application's decoder if
    that has used all bytes, none if the decoder says the type is unknown; a value of the package; none for a number
    nobody knows. *)
Inductive block_gives {I} (calls : list (item_registration I)) : Z * bytes -> list (item I) -> Prop :=
| bg_custom id d f w : last_call calls id f -> f d = Ok (w, zlen d) -> block_gives calls (id, d) [ICus w]
| bg_declined id d f : last_call calls id f -> f d = Err ErrTypeNotRegistered -> block_gives calls (id, d) []
| bg_own id d v : unregistered calls id -> extra_val_ok v -> value_wire v = (id, d) -> block_gives calls (id, d) [IOwn (Extra v [])]
| bg_unknown id d : unregistered calls id -> ~ known_id id -> block_gives calls (id, d) [].
(** Number, length, bytes *)
Definition block (x : Z * bytes) : bytes := fst x :: zlen (snd x) :: snd x.
(** Creating and decoding never panics. *)
Definition never_panics {C} (calls : list (registration C)) : Prop := forall id f d, In (id, f) calls -> f d <> Panic.
(** Every value made is a pointer. *)
Definition makes_pointers {C} (calls : list (registration C)) : Prop := forall id f d v, In (id, f) calls -> f d = Ok (ACus v) -> cu_nillable C v = true.
(** No call for an answer whose fields the server reads *)
Definition leaves_answers {C} (calls : list (registration C)) : Prop := forall id, In id answer_types -> unregistered calls id.
(** What the methods of a body say: those of the application's type, or those of the package *)
Definition said_id {C} (b : any C) : Z := match b with ACus v => cu_id C v | AEnt e => entity_id e end.
Definition said_bytes {C} (env : Env) (b : any C) : res bytes := match b with ACus v => cu_enc C v | AEnt e => encode env e end.
Definition said_after {C} (b : any C) : any C := match b with ACus v => ACus (cu_after C v) | AEnt e => AEnt (encoded e) end.
Definition said_pointer {C} (b : any C) : Prop := match b with ACus v => cu_nillable C v = true | AEnt _ => True end.
