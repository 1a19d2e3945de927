(** The example programs: a platform built on the package, and a terminal. *)
From Verif Require Import Base LibBase Bits Decimal GoTime Env EntTerm EntPlat Registry Message Timer Session Multipart Server.
From Verif Require Import SpecGeo SpecEntity SpecRange SpecFrame SpecMsg SpecSession SpecMulti SpecTimer SpecServer SpecHost.
From Verif Require Import App SpecApp ProofApp ProofApp2 ProofApp3 ProofApp4 ProofApp5 Demo DemoServer DemoApp.

(** C143. The example platform never crashes on what comes from outside, and what it does is a history of the package. *)
Theorem C143_history key prior : (forall ops sv, starts app_options prior sv -> app_legal ops -> exists a tr, app_history key prior ops a tr) /\
  (forall ops a tr, app_history key prior ops a tr -> runs app_options prior (ops_of tr) tr).
Proof. exact (conj (app_total key prior) (app_runs key prior)). Qed.
Print Assumptions C143_history.
Example C143_case : starts app_options [] app_sv /\ app_legal my_visit /\ length (ops_of (app_trace my_visit)) = 17%nat.
Proof. split; [exact app_sv_starts|]. split; [apply visit_legal, platform_wire|vm_compute; reflexivity]. Qed.

(** C144. What it says on a session: in order, the answers to the messages received there; all of them
    once the handler has returned, unless the session was shut. *)
Theorem C144_conversation key prior ops a tr id : app_history key prior ops a tr ->
  exists rest, bodies (sent_to id tr) ++ rest = conversation key prior id (ops_of tr) /\ (is_shut tr id = false -> rest = to_say (ap_todo a id)).
Proof. exact (app_talks key prior ops a tr id). Qed.
Print Assumptions C144_conversation.
Theorem C144_said key prior ops a tr id : app_history key prior (ops ++ [AGo id; AGo id]) a tr -> is_shut tr id = false ->
  bodies (sent_to id tr) = conversation key prior id (ops_of tr).
Proof. exact (app_said key prior ops a tr id). Qed.
Print Assumptions C144_said.
Example C144_case : exists a, app_history their_key [] (my_visit ++ [AGo 1; AGo 1]) a (app_trace (my_visit ++ [AGo 1; AGo 1])) /\ is_shut (app_trace (my_visit ++ [AGo 1; AGo 1])) 1 = false /\
  length (bodies (sent_to 1 (app_trace (my_visit ++ [AGo 1; AGo 1])))) = 8%nat.
Proof.
  destruct (app_result_history (my_visit ++ [AGo 1; AGo 1])) as (a & H).
  - intros pre o post E. apply (visit_legal at_platform platform_wire pre o post). unfold outside in *. rewrite flat_map_app in E. cbn [flat_map app] in E. rewrite app_nil_r in E. exact E.
  - exists a. split; [exact H|]. split; [vm_compute; reflexivity|vm_compute; reflexivity].
Qed.

(** C145. No handler panics; the callback of the query panics exactly for a message that is not the list of parameters. *)
Theorem C145_panics key prior ops a tr : app_history key prior ops a tr ->
  (forall id h m, In (SvHandle id h m) (effects tr) -> snd (handler key h m) = false) /\
  (forall id tok m, In (SvAnswer id tok m) (effects tr) -> snd (on_params m) = negb (is_answer m)).
Proof. exact (fun H => conj (fun id h m => app_calm key prior ops a tr id h m H) (fun id tok m => app_back key prior ops a tr id tok m H)). Qed.
Print Assumptions C145_panics.
Example C145_case : length (handled (effects (app_trace my_visit))) = 4%nat /\ length (answered_in (effects (app_trace my_visit))) = 1%nat.
Proof. split; vm_compute; reflexivity. Qed.

(** C146. The callback can be given another message: a general response to the query takes its place, and the parameters come to nothing. *)
Theorem C146_confirmed_refuted : exists key ops a tr n, app_history key [] ops a tr /\
  (exists tok x, answered_in (effects tr) = [SvAnswer 1 tok x] /\ is_answer x = false /\ snd (on_params x) = true) /\
  (exists m, In (SvSend 1 m) (effects tr) /\ m_body m = BEnt E8104 /\ h_serial (m_hdr m) = n) /\
  (exists y, In y (messages 1 (ops_of tr)) /\ is_answer y = true /\ answers y n).
Proof. exact hasty_history. Qed.
Print Assumptions C146_confirmed_refuted.

(** C147. The example terminal cuts a file of whole packets into packets that every receiver reads as such. *)
Theorem C147_upload env now media : now_ok env now -> file_ok media -> exists l, my_upload env now media = Ok l /\ Forall2 (tells env) l (upload_content env now media).
Proof. exact (upload_tells env now media). Qed.
Print Assumptions C147_upload.
Example C147_case : now_ok demo_env noon /\ file_ok clip /\ length (upload_content demo_env noon clip) = 2%nat /\ file_ok (repeat 0 2048).
Proof.
  split; [unfold now_ok; cbn; lia|]. split; [|split; [reflexivity|]]; (split; [|vm_compute; intuition congruence]).
  - apply Forall_app. split; apply Forall_forall; intros b I; apply repeat_spec in I; subst; unfold is_byte; lia.
  - apply Forall_forall. intros b I. apply repeat_spec in I. subst. unfold is_byte. lia.
Qed.

(** C148. Not every file can be uploaded: the program panics for each whose last packet is shorter than 256 bytes. *)
Theorem C148_any_file_refuted : exists media, bytes_ok media /\ forall env now, my_upload env now media = Panic.
Proof. exact short_file. Qed.
Print Assumptions C148_any_file_refuted.
Theorem C148_short_partial env now media : 0 < zlen media mod 512 < 256 -> my_upload env now media = Panic.
Proof. exact (my_upload_short env now media). Qed.
Print Assumptions C148_short_partial.
(** For a file of over 512 bytes whose rest has 256 bytes or more, the packets disagree about how many there are. *)
Theorem C148_uneven_partial env now media l : 512 <= zlen media < 65536 -> 256 <= zlen media mod 512 -> my_upload env now media = Ok l ->
  exists m s, firstn (Z.to_nat (zlen media / 512)) (map announced l) = repeat (Some (zlen media / 512 + 1)) (Z.to_nat (zlen media / 512)) /\
    nth_error l (Z.to_nat (zlen media / 512)) = Some m /\ announced m = Some s /\ zlen media / 512 + 1 < s.
Proof. exact (my_upload_uneven env now media l). Qed.
Print Assumptions C148_uneven_partial.
Example C148_case : 0 < zlen (repeat 7 700) mod 512 < 256 /\ 256 <= zlen (repeat 7 1408) mod 512 /\
  (exists l, my_upload demo_env noon (repeat 7 1408) = Ok l /\ map announced l = [Some 3; Some 3; Some 11; Some 11; Some 11]).
Proof. split; [vm_compute; auto|]. split; [vm_compute; congruence|]. eexists. split; vm_compute; reflexivity. Qed.

(** C149. The greeting of the example terminal: every receiver reads the authentication code, the position and the key. *)
Theorem C149_greeting env now key : texts_ok env -> now_ok env now -> wf_key key -> Forall2 (tells env) (my_greeting env now key) (greeting_content env now key).
Proof. exact (greeting_tells env now key). Qed.
Print Assumptions C149_greeting.
Example C149_case : texts_ok demo_env /\ now_ok demo_env noon /\ wf_key my_key.
Proof.
  split; [|split; [unfold now_ok; cbn; lia|vm_compute; intuition congruence]]. split; [|split; [repeat (constructor; [unfold is_byte; lia|]); constructor|vm_compute; intuition congruence]].
  split; [|vm_compute; intuition congruence]. eexists. split; [reflexivity|]. repeat (split || reflexivity); repeat (constructor; [unfold is_byte; lia|]); try constructor; vm_compute; auto.
Qed.

(** C150. It answers a query with parameters that quote it, and nothing else. *)
Theorem C150_answer env m : texts_ok env -> is_u16 (h_serial (m_hdr m)) ->
  (h_id (m_hdr m) = 0x8104 -> exists x, my_answer env m = Some x /\ tells env x (answer_content env (h_serial (m_hdr m)))) /\
  (h_id (m_hdr m) <> 0x8104 -> my_answer env m = None).
Proof. exact (fun T S => conj (fun I => answer_tells env m T I S) (my_answer_other env m)). Qed.
Print Assumptions C150_answer.
Example C150_case : texts_ok demo_env /\ is_u16 (h_serial (m_hdr query)) /\ h_id (m_hdr query) = 0x8104.
Proof. split; [apply C149_case|]. split; [vm_compute; intuition congruence|reflexivity]. Qed.

(** C151. The dialogue: a terminal heard to greet, upload a file in packets and answer queries is told [dialogue],
    and the platform's media handler is called once for the file, with the whole of it. *)
Theorem C151_dialogue env now id mykey media rest key prior ops a tr : app_history key prior ops a tr ->
  file_ok media -> answers_only rest -> alone (zlen media / 512) id (ops_of tr) -> Forall (foreign (my_file (zlen media / 512))) prior ->
  Forall2 hears (messages id (ops_of tr)) (script env now mykey media rest) ->
  conversation key prior id (ops_of tr) = dialogue key (zlen media / 512) /\
  exists m, calls_for (my_file (zlen media / 512)) (effects tr) = [SvHandle id 3 m] /\
    hears m (0x0801, 3, Some (zlen media / 512, zlen media / 512), E0801 (T0801 (T0800 1024 1 0 13 28) (seen_position env now) (Some (Rdr media false)))).
Proof. exact (file_handled env now id mykey media rest key prior ops a tr). Qed.
Print Assumptions C151_dialogue.
Example C151_case : (exists a, app_history their_key [] my_visit a (app_trace my_visit)) /\ answers_only [answer_content demo_env 2] /\
  alone (zlen clip / 512) 1 (ops_of (app_trace my_visit)) /\ Forall2 hears (messages 1 (ops_of (app_trace my_visit))) (script demo_env noon my_key clip [answer_content demo_env 2]).
Proof.
  split; [apply app_result_history, visit_legal, platform_wire|]. split; [repeat constructor|]. split.
  - intros i t x mf s d I N. exfalso. apply N. eapply visit_only; exact I.
  - exact visit_heard.
Qed.

(** C152. An answer reaches the callback of its request: the first message that quotes the serial number of a request, which
    no other request of the session has and no later request of the type has replaced. *)
Theorem C152_answer_reaches o prior ops tr a id tok e q b now x evs c : runs o prior ops tr ->
  tr = a ++ (ORequest id tok e, [SvSend id q]) :: b ++ (ODeliver id now x, evs) :: c ->
  (forall t f p, In (ORequest id t f, [SvSend id p]) (a ++ b) -> h_serial (m_hdr p) <> h_serial (m_hdr q)) ->
  (forall t f, In (ORequest id t f) (ops_of b) -> entity_id f <> entity_id e) ->
  (forall t m, In (ODeliver id t m) (ops_of b) -> ~ answers m (h_serial (m_hdr q))) ->
  answers x (h_serial (m_hdr q)) -> answered_in evs = [SvAnswer id tok x].
Proof. exact (answer_reaches o prior ops tr a id tok e q b now x evs c). Qed.
Print Assumptions C152_answer_reaches.
(** the other hypotheses are met in this history: C153_case *)
Example C152_case : runs app_options [] (ops_of (app_trace my_visit)) (app_trace my_visit) /\ length (requests_on 1 (ops_of (app_trace my_visit))) = 1%nat.
Proof. split; [|vm_compute; reflexivity]. destruct (app_result_history my_visit (visit_legal _ platform_wire)) as (a & H). exact (app_runs _ _ _ _ _ H). Qed.

(** C153. So the parameters reach the example platform, without a panic, if its terminal authenticates once. *)
Theorem C153_query key prior ops a tr u id tok e q v now x evs w : app_history key prior ops a tr ->
  tr = u ++ (ORequest id tok e, [SvSend id q]) :: v ++ (ODeliver id now x, evs) :: w ->
  (length (filter is_auth (messages id (ops_of tr))) <= 1)%nat ->
  (forall t m, In (ODeliver id t m) (ops_of v) -> ~ answers m (h_serial (m_hdr q))) ->
  is_answer x = true -> answers x (h_serial (m_hdr q)) ->
  h_id (m_hdr q) = 0x8104 /\ answered_in evs = [SvAnswer id tok x] /\ snd (on_params x) = false.
Proof. exact (query_answered key prior ops a tr u id tok e q v now x evs w). Qed.
Print Assumptions C153_query.
Example C153_case : exists u tok q v now x evs w, app_trace my_visit = u ++ (ORequest 1 tok E8104, [SvSend 1 q]) :: v ++ (ODeliver 1 now x, evs) :: w /\
  (length (filter is_auth (messages 1 (ops_of (app_trace my_visit)))) <= 1)%nat /\
  (forall t m, In (ODeliver 1 t m) (ops_of v) -> ~ answers m (h_serial (m_hdr q))) /\ is_answer x = true /\ answers x (h_serial (m_hdr q)) /\
  (forall t f p, In (ORequest 1 t f, [SvSend 1 p]) (u ++ v) -> h_serial (m_hdr p) <> h_serial (m_hdr q)) /\ (forall t f, In (ORequest 1 t f) (ops_of v) -> entity_id f <> 0x8104).
Proof. exact visit_query. Qed.
