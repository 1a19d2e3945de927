(** Small histories of the example platform with the example terminal. *)
From Verif Require Import Base LibBase Bits Decimal GoTime Env EntTerm EntPlat Registry Message Timer Session Multipart Server.
From Verif Require Import SpecGeo SpecEntity SpecRange SpecFrame SpecMsg SpecSession SpecMulti SpecTimer SpecServer SpecHost App SpecApp Demo DemoServer ProofApp ProofApp2.

(** What the platform reads of what the terminal sends *)
Definition frame_of (m : message) : bytes := match msg_encode demo_env None 0 m with Ok (d, _) => d | _ => [] end.
Definition read_of (d : bytes) : message := match msg_decode demo_env None d with Ok m => m | _ => strange 0 0 end.
Definition is_okb {A} (r : res A) : bool := match r with Ok _ => true | _ => false end.
Lemma read_wire d : forallb (fun b => (0 <=? b) && (b <? 256)) d = true -> is_okb (msg_decode demo_env None d) = true -> from_wire (read_of d).
Proof.
  intros B O. exists demo_env, None, d. split; [exact Logic.I|]. split; [apply Forall_forall; intros b I; rewrite forallb_forall in B; apply B in I; unfold is_byte; lia|].
  unfold read_of. destruct (msg_decode demo_env None d); [reflexivity|discriminate|discriminate].
Qed.
Definition my_key : t0a00 := T0A00 (Some (65537, Some (2 ^ 1023 + 1))).
Definition their_key : option t0a00 := Some (T0A00 (Some (65537, Some (2 ^ 1023 + 3)))).
Definition clip : bytes := repeat 7 512 ++ repeat 9 512.
Definition noon : Z := 1700000000.
(** Greeting, two packets, the answer to the query (the second message of the platform) *)
Definition query : message := Message (Header 0x8104 0 my_icc 2 None) (BEnt E8104).
Definition my_messages : list message := my_greeting demo_env noon my_key ++ match my_upload demo_env noon clip with Ok l => l | _ => [] end ++ match my_answer demo_env query with Some x => [x] | None => [] end.
Definition frames : list bytes := Eval vm_compute in map frame_of my_messages.
Definition at_platform : list message := map read_of frames.
(** Each message is handled before the next is read. *)
Definition visit (ms : list message) : list app_op := ANet (OConnect 1 0) :: flat_map (fun m => [ANet (ODeliver 1 5 m); AGo 1; AGo 1]) ms.
Definition app_sv : server := Server true [] (timer_new 60) empty_fs [] [].
Lemma app_sv_starts : starts app_options [] app_sv.
Proof. exists empty_fs, []. split; [constructor|]. split; reflexivity. Qed.
Definition app_result (ops : list app_op) : res (program * trace) :=
  do (sv1, tr1) <- app_start app_sv ; do (a, tr2) <- app_run their_key (App sv1 (fun _ => []) 0) ops ; Ok (a, tr1 ++ tr2).
Definition app_trace (ops : list app_op) : trace := match app_result ops with Ok (_, tr) => tr | _ => [] end.
Lemma app_result_history ops : app_legal ops -> exists a, app_history their_key [] ops a (app_trace ops).
Proof.
  intros L. destruct (app_start_inv their_key [] app_sv app_sv_starts) as (sv1 & tr1 & ST & V & _). destruct (app_run_inv their_key [] app_sv ops [] tr1 _ V L) as (a & T & R & _).
  exists a. split; auto. exists app_sv, sv1, tr1, T. split; [apply app_sv_starts|]. split; auto. split; auto. unfold app_trace, app_result. rewrite ST. cbn [bind]. rewrite R. reflexivity.
Qed.
Lemma visit_legal ms : Forall from_wire ms -> app_legal (visit ms).
Proof.
  intros F pre o post E. unfold visit, outside in E. cbn [flat_map app] in E.
  assert (X : flat_map (fun o => match o with ANet op => [op] | AGo _ => [] end) (flat_map (fun m => [ANet (ODeliver 1 5 m); AGo 1; AGo 1]) ms) = map (ODeliver 1 5) ms).
  { clear. induction ms as [|m ms IH]; [reflexivity|]. cbn. rewrite IH. reflexivity. }
  rewrite X in E. destruct pre as [|p pre]; cbn in E.
  - injection E as <- _. cbn. auto.
  - injection E as <- E. assert (I : In o (map (ODeliver 1 5) ms)) by (rewrite E; apply in_app_iff; cbn; auto). apply in_map_iff in I. destruct I as (m & <- & I). split; [cbn; auto|]. rewrite Forall_forall in F. auto.
Qed.
Lemma platform_wire : Forall from_wire at_platform.
Proof. unfold at_platform. apply Forall_forall. intros m I. apply in_map_iff in I. destruct I as (d & <- & I). apply read_wire.
  - assert (H : forallb (forallb (fun b => (0 <=? b) && (b <? 256))) frames = true) by (vm_compute; reflexivity). rewrite forallb_forall in H. auto.
  - assert (H : forallb (fun d => is_okb (msg_decode demo_env None d)) frames = true) by (vm_compute; reflexivity). rewrite forallb_forall in H. auto.
Qed.
Definition my_visit : list app_op := visit at_platform.
(** A terminal that confirms the query with a general response before it answers *)
Definition confirm_frame : bytes := Eval vm_compute in frame_of (Message (my_header 4 None) (BEnt (E0001 (T0001 2 0x8104 0)))).
Definition hasty : list app_op := visit [nth 0 at_platform (strange 0 0); read_of confirm_frame; nth 5 at_platform (strange 0 0)].

(** What these histories are *)
Lemma hasty_wire : Forall from_wire [nth 0 at_platform (strange 0 0); read_of confirm_frame; nth 5 at_platform (strange 0 0)].
Proof.
  pose proof platform_wire as P. rewrite Forall_forall in P. repeat constructor.
  - apply P. apply nth_In. vm_compute. repeat constructor.
  - apply read_wire; vm_compute; reflexivity.
  - apply P. apply nth_In. vm_compute. repeat constructor.
Qed.
Definition hasty_trace : trace := app_trace hasty.
Definition the_answer (l : list sv_event) : message := match l with SvAnswer _ _ x :: _ => x | _ => strange 0 0 end.
Definition asks (ev : sv_event) : bool := match ev with SvSend 1 m => match m_body m with BEnt E8104 => true | _ => false end | _ => false end.
Definition the_query (l : list sv_event) : message := match filter asks l with SvSend _ m :: _ => m | _ => strange 0 0 end.
Lemma hasty_history : exists key ops a tr n, app_history key [] ops a tr /\
  (exists tok x, answered_in (effects tr) = [SvAnswer 1 tok x] /\ is_answer x = false /\ snd (on_params x) = true) /\
  (exists m, In (SvSend 1 m) (effects tr) /\ m_body m = BEnt E8104 /\ h_serial (m_hdr m) = n) /\
  (exists y, In y (messages 1 (ops_of tr)) /\ is_answer y = true /\ answers y n).
Proof.
  destruct (app_result_history hasty (visit_legal _ hasty_wire)) as (a & H). exists their_key, hasty, a, (app_trace hasty), 2. split; [exact H|]. clear H. split; [|split].
  - exists 0, (the_answer (answered_in (effects (app_trace hasty)))). split; [vm_compute; reflexivity|]. split; vm_compute; reflexivity.
  - exists (the_query (effects (app_trace hasty))). split; [|split; vm_compute; reflexivity]. vm_compute. tauto.
  - exists (nth 2 (messages 1 (ops_of (app_trace hasty))) (strange 0 0)). split; [apply nth_In; vm_compute; repeat constructor|]. split; [vm_compute; reflexivity|].
    vm_compute. eexists. split; [reflexivity|]. change 2 with (a0104_serial (T0104 2 [])) at 2. constructor.
Qed.
Lemma short_file : exists media, bytes_ok media /\ forall env now, my_upload env now media = Panic.
Proof. exists [7]. split; [repeat constructor; unfold is_byte; lia|]. intros env now. apply my_upload_short. vm_compute. auto. Qed.
Lemma visit_only i t x : In (ODeliver i t x) (ops_of (app_trace my_visit)) -> i = 1.
Proof.
  assert (H : forallb (fun o => match o with ODeliver i _ _ => i =? 1 | _ => true end) (ops_of (app_trace my_visit)) = true) by (vm_compute; reflexivity).
  intros I. rewrite forallb_forall in H. apply H in I. apply Z.eqb_eq in I. exact I.
Qed.
Lemma visit_heard : Forall2 hears (messages 1 (ops_of (app_trace my_visit))) (script demo_env noon my_key clip [answer_content demo_env 2]).
Proof. vm_compute. repeat (apply Forall2_cons; [do 4 (split; [vm_compute; reflexivity|]); vm_compute; reflexivity|]). apply Forall2_nil. Qed.
Definition none_op : sv_op * list sv_event := (OTick 0, []).
Definition step_at (n : nat) : sv_op * list sv_event := nth n (app_trace my_visit) none_op.
Definition said_at (n : nat) : message := match step_at n with (ODeliver _ _ m, _) => m | (_, SvSend _ m :: _) => m | _ => strange 0 0 end.
Definition between : trace := firstn 8 (skipn 8 (app_trace my_visit)).
Definition silent_op (o : sv_op) : bool := match o with ODeliver _ _ m => match m_body m with BEnt (E0200 _) | BEnt (E0A00 _) | BEnt (E0801 _) => true | _ => false end | ORequest _ _ _ => false | _ => true end.
Lemma silent_answers (v : trace) n : forallb silent_op (ops_of v) = true -> forall t m, In (ODeliver 1 t m) (ops_of v) -> ~ answers m n.
Proof. intros H t m I (e & B & Q). rewrite forallb_forall in H. apply H in I. cbn in I. rewrite B in I. inversion Q; subst; discriminate. Qed.
Definition no_request (o : sv_op) : bool := match o with ORequest _ _ _ => false | _ => true end.
Lemma no_requests (v : trace) : forallb no_request (ops_of v) = true -> forall t f, ~ In (ORequest 1 t f) (ops_of v).
Proof. intros H t f I. rewrite forallb_forall in H. apply H in I. discriminate. Qed.
Lemma no_requests_sent (v : trace) : forallb no_request (ops_of v) = true -> forall t f evs, ~ In (ORequest 1 t f, evs) v.
Proof. intros H t f evs I. apply (no_requests v H t f). apply (in_map fst) in I. exact I. Qed.
Lemma query_shape (T u v w : trace) (q x : message) evs : T = u ++ (ORequest 1 0 E8104, [SvSend 1 q]) :: v ++ (ODeliver 1 5 x, evs) :: w ->
  (length (filter is_auth (messages 1 (ops_of T))) <= 1)%nat -> forallb silent_op (ops_of v) = true -> is_answer x = true -> answers x (h_serial (m_hdr q)) ->
  forallb no_request (ops_of (u ++ v)) = true -> forallb no_request (ops_of v) = true ->
  exists u tok q v now x evs w, T = u ++ (ORequest 1 tok E8104, [SvSend 1 q]) :: v ++ (ODeliver 1 now x, evs) :: w /\
  (length (filter is_auth (messages 1 (ops_of T))) <= 1)%nat /\
  (forall t m, In (ODeliver 1 t m) (ops_of v) -> ~ answers m (h_serial (m_hdr q))) /\ is_answer x = true /\ answers x (h_serial (m_hdr q)) /\
  (forall t f p, In (ORequest 1 t f, [SvSend 1 p]) (u ++ v) -> h_serial (m_hdr p) <> h_serial (m_hdr q)) /\ (forall t f, In (ORequest 1 t f) (ops_of v) -> entity_id f <> 0x8104).
Proof.
  intros E A S IA AX N1 N2. exists u, 0, q, v, 5, x, evs, w. split; auto. split; auto. split; [apply silent_answers; auto|]. split; auto. split; auto. split.
  - intros t f p I. destruct (no_requests_sent _ N1 _ _ _ I).
  - intros t f I. destruct (no_requests _ N2 _ _ I).
Qed.
Lemma visit_query : exists u tok q v now x evs w, app_trace my_visit = u ++ (ORequest 1 tok E8104, [SvSend 1 q]) :: v ++ (ODeliver 1 now x, evs) :: w /\
  (length (filter is_auth (messages 1 (ops_of (app_trace my_visit)))) <= 1)%nat /\
  (forall t m, In (ODeliver 1 t m) (ops_of v) -> ~ answers m (h_serial (m_hdr q))) /\ is_answer x = true /\ answers x (h_serial (m_hdr q)) /\
  (forall t f p, In (ORequest 1 t f, [SvSend 1 p]) (u ++ v) -> h_serial (m_hdr p) <> h_serial (m_hdr q)) /\ (forall t f, In (ORequest 1 t f) (ops_of v) -> entity_id f <> 0x8104).
Proof.
  apply (query_shape (app_trace my_visit) (firstn 7 (app_trace my_visit)) between (skipn 17 (app_trace my_visit)) (said_at 7) (said_at 16) (snd (step_at 16))); try (vm_compute; reflexivity).
  vm_compute. eexists. split; [reflexivity|]. change 2 with (a0104_serial (T0104 2 [])) at 2. constructor.
Qed.
