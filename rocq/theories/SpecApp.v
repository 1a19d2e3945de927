(** What the example platform says to a terminal, as a table. *)
From Verif Require Import Base Decimal GoTime Env EntTerm EntPlat Registry Message Timer Session Multipart Server SpecGeo SpecEntity SpecFrame SpecMsg SpecSession SpecMulti SpecTimer SpecServer SpecHost App.

(** A message decoded from some frame *)
Definition from_wire (m : message) : Prop := exists env key data, key_ok env key /\ bytes_ok data /\ msg_decode env key data = Ok m.
(** What comes from outside: sessions are new, messages come from the wire on accepted sessions. *)
Definition outside (ops : list app_op) : list sv_op := flat_map (fun o => match o with ANet op => [op] | AGo _ => [] end) ops.
Definition app_legal (ops : list app_op) : Prop := forall pre o post, outside ops = pre ++ o :: post ->
  match o with
  | OConnect id _ => ~ In id (connects pre)
  | ODeliver id _ m => In id (connects pre) /\ from_wire m
  | _ => True
  end.
(** A history of the example platform, whose multipart files were left by [prior] calls: the state
    it ends in, and the calls of the package with their effects *)
Definition app_history (key : option t0a00) (prior : list mop) (ops : list app_op) (a : program) (tr : trace) : Prop :=
  app_legal ops /\ exists sv sv1 tr1 tr2, starts app_options prior sv /\ app_start sv = Ok (sv1, tr1) /\
    app_run key (App sv1 (fun _ => []) 0) ops = Ok (a, tr2) /\ tr = tr1 ++ tr2.

(** What it says to a whole message: it acknowledges authentication, positions and keys, asks for the
    parameters after an authentication, gives its own key for a key, confirms a media file with an
    empty list of packets to repeat, and is silent otherwise. *)
Definition says_to (key : option t0a00) (m : message) : list entity :=
  match m_body m with
  | BEnt (E0102 _) => [response m 0; E8104]
  | BEnt (E0200 _) => [response m 0]
  | BEnt (E0801 e) => [E8800 (T8800 (a0800_media (a0801_head e)) [])]
  | BEnt (E0A00 _) => response m 0 :: match key with Some k => [E8A00 k] | None => [] end
  | _ => []
  end.
(** What it says to any message, after the uploads [up]: packets of a media file are acknowledged one
    by one, the one that completes it also as a whole message; an unknown message is refused. *)
Definition speech (key : option t0a00) (up : list mop) (m : message) : list entity :=
  if has_body m then
    match part_of true m with
    | None => says_to key m
    | Some p => response m 0 :: if completes up p then says_to key m else []
    end
  else [response m 3].
(** The messages that a session's terminal was answered, in order *)
Fixpoint conversation_from (key : option t0a00) (id : Z) (h : hist) (ops : list sv_op) : list entity :=
  match ops with
  | [] => []
  | o :: t => (match o with ODeliver i _ m => if i =? id then speech key (hi_up h) m else [] | _ => [] end) ++ conversation_from key id (hist_step true h o) t
  end.
Definition conversation (key : option t0a00) (prior : list mop) (id : Z) (ops : list sv_op) : list entity :=
  conversation_from key id (Hist prior (fun _ => 0)) ops.
(** The bodies of messages *)
Definition bodies (l : list message) : list entity := flat_map (fun m => match m_body m with BEnt e => [e] | _ => [] end) l.
(** The calls still to come *)
Definition to_say (l : list sv_op) : list entity := flat_map (fun o => match o with OSendTo _ e | ORequest _ _ e => [e] | _ => [] end) l.

(** Messages that arrive on a session *)
Definition messages (id : Z) (ops : list sv_op) : list message :=
  flat_map (fun o => match o with ODeliver i _ m => if i =? id then [m] else [] | _ => [] end) ops.
(** Authentications *)
Definition is_auth (m : message) : bool := match m_body m with BEnt (E0102 _) => true | _ => false end.
(** The requests made on a session: name and body *)
Definition requests_on (id : Z) (ops : list sv_op) : list (Z * entity) :=
  flat_map (fun o => match o with ORequest i tok e => if i =? id then [(tok, e)] else [] | _ => [] end) ops.
Definition is_answer (m : message) : bool := match m_body m with BEnt (E0104 _) => true | _ => false end.

(** ** The terminal *)

(** What the receiver of a message learns: message ID, serial number, packet numbers, body *)
Definition content := (Z * Z * option (Z * Z) * entity)%type.
Definition hears (m : message) (c : content) : Prop :=
  let '(id, n, packet, e) := c in
  h_id (m_hdr m) = id /\ h_icc (m_hdr m) = 19901234567 /\ h_serial (m_hdr m) = n /\ h_packet (m_hdr m) = packet /\ m_body m = BEnt e.
(** A message is encoded, and read from its bytes by any receiver as [m']. *)
Definition reaches (env : Env) (m m' : message) : Prop := forall rnd, exists data sent, msg_encode env None rnd m = Ok (data, sent) /\
  forall key, msg_decode env key data = Ok m'.
Definition tells (env : Env) (m : message) (c : content) : Prop := exists m', reaches env m m' /\ hears m' c.
(** The encoding of the texts the terminal sends: "12345678", and the plate as a parameter *)
Definition texts_ok (env : Env) : Prop :=
  text_in env [49; 50; 51; 52; 53; 54; 55; 56] 1023 /\
  bytes_ok (fst (gb_enc env [232; 189; 166; 231; 137; 140; 229; 143; 183; 231; 160; 129])) /\
  zlen (fst (gb_enc env [232; 189; 166; 231; 137; 140; 229; 143; 183; 231; 160; 129])) <= 255.
(** The clock of the terminal shows a year from 2010 to 2099. *)
Definition now_ok (env : Env) (now : Z) : Prop := 1262304000 <= now + tz_off env < 4102444800.
(** 23.562345 north, 128.323123 west, with the flag for west *)
Definition seen_position (env : Env) (now : Z) : t0200 :=
  T0200 2342 8 (Dec 23562345 (-6)) (Dec (-128323123) (-6)) 2345 160 72 (GoTime now 0 (tz_off env)) [].
Definition greeting_content (env : Env) (now : Z) (key : t0a00) : list content :=
  [(0x0102, 1, None, E0102 (T0102 [49; 50; 51; 52; 53; 54; 55; 56]));
   (0x0200, 2, None, E0200 (seen_position env now));
   (0x0A00, 3, None, E0A00 key)].
(** The answer to the query number [n] *)
Definition answer_content (env : Env) (n : Z) : content :=
  (0x0104, 1000, None, E0104 (T0104 n
     [Some (Param 0x84 [24]); Some (Param 0x110 [1; 2; 3; 4; 5; 6; 7; 8]); Some (Param 0x31 [0; 100]); Some (Param 0x46 [0; 0; 250; 0]);
      Some (Param 0x83 (fst (gb_enc env [232; 189; 166; 231; 137; 140; 229; 143; 183; 231; 160; 129])))])).
Definition slice (media : bytes) (i : Z) : bytes := firstn 512 (skipn (Z.to_nat (512 * (i - 1))) media).
Definition packet_content (env : Env) (now : Z) (media : bytes) (i : Z) : content :=
  (0x0801, 3, Some (zlen media / 512, i), E0801 (T0801 (T0800 1024 1 0 13 28) (seen_position env now) (Some (Rdr (slice media i) false)))).
Definition upload_content (env : Env) (now : Z) (media : bytes) : list content := map (packet_content env now media) (upto (zlen media / 512)).
(** A file of whole packets *)
Definition file_ok (media : bytes) : Prop := bytes_ok media /\ zlen media mod 512 = 0 /\ 1 <= zlen media / 512 <= 65535.
(** How many packets a message says there are *)
Definition announced (m : message) : option Z := option_map fst (h_packet (m_hdr m)).

(** The general response of the platform to message [n] of type [id] *)
Definition ack (n id : Z) : entity := E8001 (T8001 n id 0).
(** What a terminal hears that greets and uploads a file of [k] packets *)
Definition dialogue (key : option t0a00) (k : Z) : list entity :=
  [ack 1 0x0102; E8104; ack 2 0x0200; ack 3 0x0A00] ++ (match key with Some x => [E8A00 x] | None => [] end) ++
  repeat (ack 3 0x0801) (Z.to_nat k) ++ [E8800 (T8800 1024 [])].
(** The upload of the terminal's file *)
Definition my_file (k : Z) : mpf := Mpf 19901234567 0x0801 1024 k.
(** Nobody else sends packets of the file. *)
Definition alone (k id : Z) (ops : list sv_op) : Prop :=
  forall i t x mf s d, In (ODeliver i t x) ops -> i <> id -> part_of true x = Some (mf, s, d) -> same_upload mf (my_file k) = false.
(** Messages that are answers to queries *)
Definition answers_only (cs : list content) : Prop := Forall (fun c => match c with (0x0104, _, None, E0104 _) => True | _ => False end) cs.
(** What the terminal tells: the greeting, the file, answers to queries *)
Definition script (env : Env) (now : Z) (mykey : t0a00) (media : bytes) (rest : list content) : list content :=
  greeting_content env now mykey ++ upload_content env now media ++ rest.
