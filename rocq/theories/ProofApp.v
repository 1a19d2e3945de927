(** The example platform: every history of it is a history of the server, and what it says. *)
From Verif Require Import Base LibBase Bits Env EntTerm EntPlat Registry Message Timer Session Multipart Server.
From Verif Require Import SpecGeo SpecEntity SpecRange SpecFrame SpecMsg SpecSession SpecMulti SpecTimer SpecServer.
From Verif Require Import ProofMsg ProofServer ProofServer2 ProofServer3 ProofServer4 ProofServer6 SpecHost ProofHost ProofHost2.
From Verif Require Import App SpecApp.

(** ** Handlers *)
Definition app_handler (i : Z) : option Z := handler_of app_handlers i.
Lemma app_handler_eq i : app_handler i = if i =? 0x0A00 then Some 4 else if i =? 0x0801 then Some 3 else if i =? 0x0200 then Some 2 else if i =? 0x0102 then Some 1 else None.
Proof.
  unfold app_handler, app_handlers, handler_of. cbn [fold_left]. rewrite !(Z.eqb_sym i). reflexivity.
Qed.
Lemma all_some {A} (P : option A -> Prop) (l : list (option A)) : (forall x, P x -> x <> None) -> Forall P l -> forallb (fun x => match x with Some _ => true | None => false end) l = true.
Proof. intros H F. apply forallb_forall. intros x I. rewrite Forall_forall in F. specialize (F x I). apply H in F. destruct x; congruence. Qed.
Lemma wire_received m : from_wire m -> received m.
Proof. intros (env & key & data & K & B & D). eapply decode_received; eauto. Qed.
Lemma wire_body m e : from_wire m -> m_body m = BEnt e -> entity_id e = h_id (m_hdr m) /\ exists env, decoded_ok env e.
Proof. intros (env & key & data & K & B & D) E. destruct (ProofMsg.delivered env key data m K B D) as [N|(e' & E' & I & R)]; [congruence|]. rewrite E in E'. injection E' as <-. eauto. Qed.
Lemma with_data_hdr m c : m_hdr (with_data m c) = m_hdr m.
Proof. unfold with_data. destruct (m_body m) as [| |[]]; reflexivity. Qed.
Lemma says_with_data key m c : says_to key (with_data m c) = says_to key m.
Proof. unfold with_data, says_to, response. destruct (m_body m) as [| |[]] eqn:E; cbn; rewrite ?E; reflexivity. Qed.
(** A handler does what the table says and does not panic. *)
Lemma handler_says key id tok m m' : from_wire m -> has_body m = true -> m' = m \/ (exists c, m' = with_data m c) ->
  match app_handler (h_id (m_hdr m)) with
  | Some h => snd (handler key h m') = false /\ to_say (map (act_op id tok m') (fst (handler key h m'))) = says_to key m /\
              asked (map (act_op id tok m') (fst (handler key h m'))) = if is_auth m then [tok] else []
  | None => says_to key m = [] /\ is_auth m = false
  end.
Proof.
  intros W B M. unfold has_body in B. destruct (m_body m) as [|n|e] eqn:E; try discriminate. destruct (wire_body m e W E) as (I & env & R). pose proof (wire_received m W) as V. unfold received in V. rewrite E in V. destruct V as (_ & _ & _ & _ & _ & _ & V).
  rewrite app_handler_eq, <- I.
  assert (IA : is_auth m = match e with E0102 _ => true | _ => false end) by (unfold is_auth; rewrite E; reflexivity).
  assert (C : forall h, snd (handler key h m') = false /\ to_say (map (act_op id tok m') (fst (handler key h m'))) = says_to key m' /\ asked (map (act_op id tok m') (fst (handler key h m'))) = (if is_auth m then [tok] else []) ->
    snd (handler key h m') = false /\ to_say (map (act_op id tok m') (fst (handler key h m'))) = says_to key m /\ asked (map (act_op id tok m') (fst (handler key h m'))) = if is_auth m then [tok] else []).
  { intros h (X & Y & Z0). split; auto. split; auto. rewrite Y. destruct M as [->|(c & ->)]; [reflexivity|apply says_with_data]. }
  destruct e; cbn [entity_id Z.eqb Pos.eqb]; try (split; [unfold says_to; rewrite E; reflexivity|exact IA]); apply C; clear C; rewrite IA.
  - assert (m' = m) as -> by (destruct M as [->|(c & ->)]; [reflexivity|unfold with_data; rewrite E; reflexivity]).
    split; [reflexivity|]. unfold says_to. rewrite E. split; reflexivity.
  - assert (m' = m) as -> by (destruct M as [->|(c & ->)]; [reflexivity|unfold with_data; rewrite E; reflexivity]).
    unfold handler, on_location, says_to. cbn [Z.eqb Pos.eqb]. rewrite E. destruct R as (_ & _ & _ & _ & _ & _ & _ & _ & R).
    rewrite (all_some dec_extra (p_extras e)); [repeat split|intros x; destruct x; [discriminate|contradiction]|auto]. 
  - destruct V as (_ & data & V). unfold handler, on_media, says_to. cbn [Z.eqb Pos.eqb]. destruct M as [->|(c & ->)].
    + rewrite E. rewrite V. auto.
    + unfold with_data. rewrite E. cbn. auto.
  - assert (m' = m) as -> by (destruct M as [->|(c & ->)]; [reflexivity|unfold with_data; rewrite E; reflexivity]).
    unfold handler, on_key, says_to. cbn [Z.eqb Pos.eqb]. rewrite E. split; [reflexivity|]. destruct key; split; reflexivity.
Qed.
(** What a callback panics on *)
Lemma callback_panics m m' : from_wire m -> m' = m \/ (exists c, m' = with_data m c) -> snd (on_params m') = negb (is_answer m').
Proof.
  intros W M. unfold on_params, is_answer. destruct M as [->|(c & ->)].
  - destruct (m_body m) as [| |e] eqn:E; try reflexivity. destruct e; try reflexivity. destruct (wire_body m _ W E) as (_ & env & _ & R & _). cbn [snd negb]. rewrite (all_some dec_param (a0104_params e)); auto. intros [x|]; [discriminate|contradiction].
  - unfold with_data. destruct (m_body m) as [| |e] eqn:E; rewrite ?E; try reflexivity. destruct e; rewrite ?E; try reflexivity. destruct (wire_body m _ W E) as (_ & env & _ & R & _). cbn [snd negb]. rewrite (all_some dec_param (a0104_params e)); auto. intros [x|]; [discriminate|contradiction].
Qed.

(** ** Deliveries *)
Definition own (id tok : Z) (o : sv_op) : Prop := match o with OSendTo i e => i = id /\ e <> E8104 | ORequest i t e => i = id /\ t = tok /\ e = E8104 | _ => False end.
Lemma reaction_app key tok a b : flat_map (reaction key tok) (a ++ b) = flat_map (reaction key tok) a ++ flat_map (reaction key tok) b.
Proof. apply flat_map_app. Qed.
Lemma acts_own key id tok h m : let L := map (act_op id tok m) (fst (handler key h m)) in Forall (own id tok) L /\ (length L <= 2)%nat.
Proof.
  cbn zeta. unfold handler. destruct (h =? 1); [|destruct (h =? 2); [|destruct (h =? 3)]].
  - cbn. split; [repeat constructor; try discriminate|auto].
  - unfold on_location. destruct (m_body m) as [| |[]]; try (cbn; auto). destruct (forallb _ _); cbn; auto. split; [repeat constructor; try discriminate|auto].
  - unfold on_media. destruct (m_body m) as [| |[]]; try (cbn; auto). destruct (a0801_packet e); cbn; auto. split; [repeat constructor; try discriminate|auto].
  - unfold on_key. destruct (m_body m) as [| |[]]; try (cbn; auto). destruct key; cbn; split; auto; repeat constructor; try discriminate.
Qed.
Definition calm (key : option t0a00) (id : Z) (evs : list sv_event) : Prop :=
  (forall i h x, In (SvHandle i h x) evs -> i = id /\ snd (handler key h x) = false) /\ (forall i t x, In (SvAnswer i t x) evs -> snd (on_params x) = negb (is_answer x)).
Definition quiet (evs : list sv_event) : Prop := (forall i h x, ~ In (SvHandle i h x) evs) /\ (forall i t x, ~ In (SvAnswer i t x) evs).
Lemma calm_quiet key id evs : quiet evs -> calm key id evs.
Proof. intros (A & B). split; [intros i h x I; apply A in I; contradiction|intros i t x I; apply B in I; contradiction]. Qed.
Lemma calm_app key id a b : calm key id a -> calm key id b -> calm key id (a ++ b).
Proof. intros (A1 & A2) (B1 & B2). split; [intros i h x I|intros i t x I]; apply in_app_iff in I; destruct I; eauto. Qed.
Lemma dispatched_says key tok T id now m m' evs : (forall i, handler_of (ops_of T) i = app_handler i) -> from_wire m -> has_body m = true ->
  m' = m \/ (exists c, m' = with_data m c) -> dispatching T id now m' evs ->
  let L := flat_map (reaction key tok) evs in
  (forall i, sends_to i evs = []) /\ (forall i, shuts i evs = false) /\ Forall (own id tok) L /\ asked L = (if is_auth m then [tok] else []) /\ (length L <= 2)%nat /\ to_say L = says_to key m /\ calm key id evs.
Proof.
  intros HD W B M D. cbn zeta. assert (MH : m_hdr m' = m_hdr m) by (destruct M as [->|(c & ->)]; [reflexivity|apply with_data_hdr]).
  pose proof (handler_says key id tok m m' W B M) as HS. destruct D as (ans & A & ->). rewrite MH, HD.
  assert (Q : (forall i, sends_to i ans = []) /\ (forall i, shuts i ans = false) /\ flat_map (reaction key tok) ans = [] /\ calm key id ans).
  { destruct A as [(-> & _)|(r & _ & _ & ->)]; (split; [reflexivity|]; split; [reflexivity|]; split; [reflexivity|]); [apply calm_quiet; split; intros i h x []|].
    split; [intros i h x [X|[]]; discriminate|]. intros i t x [X|[]]. injection X as <- <- <-. eapply callback_panics; eauto. }
  destruct Q as (Q1 & Q2 & Q3 & Q4). rewrite reaction_app, Q3. cbn [app]. destruct (app_handler (h_id (m_hdr m))) as [h|].
  - destruct HS as (P & S & AS). cbn [flat_map reaction app]. rewrite app_nil_r. destruct (acts_own key id tok h m') as (O1 & O2).
    split; [intros i; rewrite sends_to_app, Q1; reflexivity|]. split; [intros i; unfold shuts in *; rewrite existsb_app, Q2; reflexivity|]. do 4 (split; [assumption|]).
    apply calm_app; auto. split; [intros i h' x [I|[I|[]]]; [discriminate|]; injection I as <- <- <-; auto|intros i t x [I|[I|[]]]; discriminate].
  - destruct HS as (HS & NA). cbn [flat_map to_say asked]. rewrite app_nil_r, NA, HS. split; [auto|]. split; [auto|]. split; [constructor|]. split; [auto|]. split; [auto|]. auto.
Qed.
Lemma sending_says prior T id e evs : sending true prior T id e evs ->
  (forall i, i <> id -> sends_to i evs = [] /\ shuts i evs = false) /\ (is_shut T id || shuts id evs = false -> bodies (sends_to id evs) = [e]) /\
  (is_shut T id || shuts id evs = true -> sends_to id evs = []) /\ (forall key tok, flat_map (reaction key tok) evs = []) /\ quiet evs.
Proof.
  unfold sending, quiet. destruct (is_shut T id); [|destruct (blocked _ _)]; intros ->; cbn; rewrite ?Z.eqb_refl; repeat split; auto; try discriminate; try tauto.
  - destruct (Z.eqb_spec id i); [congruence|reflexivity].
  - intros i h x [X|[]]; discriminate.
  - intros i h x [X|[]]; discriminate.
  - destruct (Z.eqb_spec id i); [congruence|reflexivity].
  - intros i h x [X|[]]; discriminate.
  - intros i h x [X|[]]; discriminate.
Qed.
Lemma delivery_says key tok prior T id now m evs : (forall i, handler_of (ops_of T) i = app_handler i) -> from_wire m -> delivery true prior T id now m evs ->
  let L := flat_map (reaction key tok) evs in
  (forall i, i <> id -> sends_to i evs = [] /\ shuts i evs = false) /\ Forall (own id tok) L /\ asked L = (if is_auth m then [tok] else []) /\ (length L <= 2)%nat /\ calm key id evs /\
  exists rest, bodies (sends_to id evs) ++ rest = speech key (hi_up (history true prior (ops_of T))) m /\ (is_shut T id || shuts id evs = false -> rest = to_say L).
Proof.
  intros HD W D. cbn zeta. unfold delivery, speech in *. destruct (has_body m) eqn:B.
  - destruct (part_of true m) as [[[mf sq] data]|] eqn:PO.
    + assert (NA : is_auth m = false) by (unfold part_of in PO; unfold is_auth; destruct (h_packet (m_hdr m)) as [[]|]; [|discriminate]; destruct (m_body m) as [| |[]]; try discriminate; reflexivity).
      destruct (completes _ _).
      * destruct D as (c & e1 & e2 & _ & -> & S & D). destruct (sending_says _ _ _ _ _ S) as (S1 & S2 & S3 & S4 & S5).
        destruct (dispatched_says key tok T id now m (with_data m c) e2 HD W B (or_intror (ex_intro _ c eq_refl)) D) as (D1 & D2 & D3 & D4 & D4b & D5 & D6).
        rewrite reaction_app, S4. cbn [app]. split; [intros i N; rewrite sends_to_app, D1, app_nil_r; unfold shuts in *; rewrite existsb_app, D2, orb_false_r; auto|]. do 3 (split; [assumption|]).
        split; [apply calm_app; auto; apply calm_quiet; auto|].
        rewrite sends_to_app, D1, app_nil_r. replace (shuts id (e1 ++ e2)) with (shuts id e1) by (unfold shuts in *; rewrite existsb_app, D2, orb_false_r; reflexivity).
        destruct (is_shut T id || shuts id e1); [rewrite S3 by reflexivity; eexists; split; [reflexivity|discriminate]|]. rewrite S2 by reflexivity. rewrite D5. eexists. split; [reflexivity|auto].
      * destruct (sending_says _ _ _ _ _ D) as (S1 & S2 & S3 & S4 & S5). rewrite S4, NA. split; [auto|]. split; [constructor|]. split; [auto|]. split; [cbn; lia|]. split; [apply calm_quiet; auto|].
        destruct (is_shut T id || shuts id evs); [rewrite S3 by reflexivity; eexists; split; [reflexivity|discriminate]|]. rewrite S2 by reflexivity. exists []. auto.
    + destruct (dispatched_says key tok T id now m m evs HD W B (or_introl eq_refl) D) as (D1 & D2 & D3 & D4 & D4b & D5 & D6). split; [auto|]. do 4 (split; [assumption|]). rewrite D1, <- D5. exists (to_say (flat_map (reaction key tok) evs)). auto.
  - assert (NA : is_auth m = false) by (unfold has_body in B; unfold is_auth; destruct (m_body m); [reflexivity|reflexivity|discriminate]).
    destruct (sending_says _ _ _ _ _ D) as (S1 & S2 & S3 & S4 & S5). rewrite S4, NA. split; [auto|]. split; [constructor|]. split; [auto|]. split; [cbn; lia|]. split; [apply calm_quiet; auto|].
    destruct (is_shut T id || shuts id evs); [rewrite S3 by reflexivity; eexists; split; [reflexivity|discriminate]|]. rewrite S2 by reflexivity. exists []. auto.
Qed.

(** ** Conversations *)
Lemma conversation_snoc key prior id ops : forall o, conversation key prior id (ops ++ [o]) =
  conversation key prior id ops ++ match o with ODeliver i _ m => if i =? id then speech key (hi_up (history true prior ops)) m else [] | _ => [] end.
Proof.
  unfold conversation, history. generalize (Hist prior (fun _ => 0)). induction ops as [|x ops IH]; intros h o; cbn [app conversation_from fold_left].
  - apply app_nil_r.
  - rewrite IH, <- app_assoc. reflexivity.
Qed.
Lemma bodies_app a b : bodies (a ++ b) = bodies a ++ bodies b. Proof. apply flat_map_app. Qed.
Lemma to_say_cons o l : to_say (o :: l) = match o with OSendTo _ e | ORequest _ _ e => [e] | _ => [] end ++ to_say l. Proof. reflexivity. Qed.

(** ** The invariant *)
Definition pref (ops : list sv_op) : Prop := forall a id t m b, ops = a ++ ODeliver id t m :: b -> forall i, handler_of a i = app_handler i.
Lemma pref_snoc ops o : pref ops -> (forall i, handler_of ops i = app_handler i) -> pref (ops ++ [o]).
Proof.
  intros P H a id t m b E. destruct b as [|x b] using rev_ind; [apply app_inj_tail in E; destruct E as (-> & _); exact H|]. clear IHb.
  change (a ++ ODeliver id t m :: b ++ [x]) with (a ++ (ODeliver id t m :: b) ++ [x]) in E. rewrite app_assoc in E. apply app_inj_tail in E. destruct E as (E & _). eapply P; eauto.
Qed.
Definition tame_op (o : sv_op) : Prop := match o with OSendTo _ e => e <> E8104 | ORequest _ _ e => e = E8104 | OBroadcast _ => False | _ => True end.
Lemma tame_snoc l o : Forall tame_op l -> tame_op o -> Forall tame_op (l ++ [o]). Proof. intros. apply Forall_app. auto. Qed.
Lemma requests_app id a b : requests_on id (a ++ b) = requests_on id a ++ requests_on id b. Proof. apply flat_map_app. Qed.
Lemma messages_app id a b : messages id (a ++ b) = messages id a ++ messages id b. Proof. apply flat_map_app. Qed.
Lemma requests_own id tok l : Forall (own id tok) l -> length (requests_on id l) = length (asked l) /\ forall i, i <> id -> requests_on i l = [].
Proof.
  induction 1 as [|o l O F (A & B)]; [auto|]. change (o :: l) with ([o] ++ l). rewrite requests_app, asked_app, !app_length, A. split.
  - destruct o; cbn in O; try contradiction; [reflexivity|]. destruct O as (-> & _). cbn. rewrite Z.eqb_refl. reflexivity.
  - intros i N. rewrite requests_app, (B i N). destruct o; cbn in O; try contradiction; [reflexivity|]. destruct O as (-> & _). cbn. destruct (Z.eqb_spec id i); [congruence|reflexivity].
Qed.
Section Platform.
Variables (key : option t0a00) (prior : list mop) (sv0 : server).
Notation core := (core app_options prior sv0).

Record ainv (outs : list sv_op) (T : trace) (a : program) : Prop := {
  av_core : core T (ap_sv a);
  av_conn : connects (ops_of T) = connects outs;
  av_handlers : forall i, handler_of (ops_of T) i = app_handler i;
  av_past : forall t, In t (asked (ops_of T)) -> t < ap_next a;
  av_todo : forall id o, In o (ap_todo a id) -> exists t, own id t o /\ In id (connects (ops_of T));
  av_next : forall id t, In t (asked (ap_todo a id)) -> t < ap_next a /\ ~ In t (asked (ops_of T));
  av_nodup : forall id, NoDup (asked (ap_todo a id));
  av_apart : forall i j t, In t (asked (ap_todo a i)) -> In t (asked (ap_todo a j)) -> i = j;
  av_short : forall id, (length (ap_todo a id) <= 2)%nat;
  av_calm : forall i h x, In (SvHandle i h x) (effects T) -> snd (handler key h x) = false;
  av_back : forall i t x, In (SvAnswer i t x) (effects T) -> snd (on_params x) = negb (is_answer x);
  av_pref : pref (ops_of T);
  av_tame : Forall tame_op (ops_of T);
  av_auth : forall id, (length (requests_on id (ops_of T)) + length (requests_on id (ap_todo a id)))%nat = length (filter is_auth (messages id (ops_of T)));
  av_talk : forall id, exists rest, bodies (sent_to id T) ++ rest = conversation key prior id (ops_of T) /\ (is_shut T id = false -> rest = to_say (ap_todo a id)) }.

Lemma core_step T sv op : core T sv -> legal_op (ops_of T) op -> exists sv' evs, sv_step sv op = Ok (sv', evs) /\ core (T ++ [(op, evs)]) sv' /\ effect true 60 prior T op evs.
Proof.
  intros C L. assert (C' := C). destruct C as (V & X & LG & R). destruct (step_all _ _ _ _ _ _ V L) as (sv' & evs & S & V' & E). exists sv', evs. split; [exact S|]. split; [|exact E].
  destruct (core_run _ _ _ T sv [op] C') as (sv2 & T2 & R2 & O2 & C2); [apply legal_snoc; auto|]. cbn [sv_run] in R2. rewrite S in R2. cbn [bind] in R2. injection R2 as <- <-. exact C2.
Qed.
Lemma sent_snoc_to T op evs id : sent_to id (T ++ [(op, evs)]) = sent_to id T ++ sends_to id evs.
Proof. rewrite sent_to_app. f_equal. rewrite sent_to_eq. unfold effects. cbn [flat_map snd]. rewrite app_nil_r. reflexivity. Qed.
(** Operations from outside that are no messages send nothing. *)
Definition plain (op : sv_op) : bool := match op with OConnect _ _ | OAddCb _ | OClose _ | ORunClose _ | OTick _ | OQueue _ _ => true | _ => false end.
Lemma plain_sends T op evs : plain op = true -> effect true 60 prior T op evs -> (forall id, sends_to id evs = []) /\ quiet evs.
Proof.
  destruct op; try discriminate; intros _ E; cbn [effect] in E; subst.
  - split; [reflexivity|]. split; intros i h x [I|[]]; discriminate.
  - split; [reflexivity|]. split; intros i h x [].
  - unfold shut_if. destruct (open T id); (split; [reflexivity|]); split; cbn; intros i h x I; intuition discriminate.
  - destruct E as [(-> & _)|(-> & _)]; (split; [reflexivity|]); split; cbn; intros i h x I; intuition discriminate.
  - destruct E as (keys & _ & ->). split; [intros; apply shut_flat_sends|]. split; intros i h x I; apply in_flat_map in I; destruct I as (k & _ & I); unfold shut_if in I; destruct (_ && _); cbn in I; intuition discriminate.
  - split; [reflexivity|]. split; intros i h x [].
Qed.
Lemma step_plain outs T a op : ainv outs T a -> plain op = true -> legal_op (ops_of T) op ->
  exists sv evs, sv_step (ap_sv a) op = Ok (sv, evs) /\ ainv (outs ++ [op]) (T ++ [(op, evs)]) (App sv (ap_todo a) (ap_next a)).
Proof.
  intros V P L. destruct (core_step T (ap_sv a) op (av_core _ _ _ V) L) as (sv & evs & S & C & E). exists sv, evs. split; auto. destruct (plain_sends T op evs P E) as (N1 & N2).
  assert (A0 : asked (ops_of (T ++ [(op, evs)])) = asked (ops_of T)) by (rewrite ops_snoc, asked_snoc; cbn [fst]; destruct op; try discriminate; apply app_nil_r).
  constructor; cbn [ap_sv ap_todo ap_next]; auto.
  - rewrite ops_snoc, !connects_snoc. cbn [fst]. rewrite (av_conn _ _ _ V). reflexivity.
  - intros i. rewrite ops_snoc, handler_snoc. cbn [fst]. destruct op; try discriminate; apply (av_handlers _ _ _ V).
  - rewrite A0. apply (av_past _ _ _ V).
  - intros id o I. destruct (av_todo _ _ _ V id o I) as (t & O & Q). exists t. split; auto. rewrite ops_snoc, connects_snoc. apply in_app_iff. auto.
  - rewrite A0. apply (av_next _ _ _ V).
  - apply (av_nodup _ _ _ V).
  - apply (av_apart _ _ _ V).
  - apply (av_short _ _ _ V).
  - intros i h x I. rewrite effects_snoc in I. apply in_app_iff in I. destruct I as [I|I]; [eapply (av_calm _ _ _ V); eauto|apply (proj1 N2) in I; contradiction].
  - intros i h x I. rewrite effects_snoc in I. apply in_app_iff in I. destruct I as [I|I]; [eapply (av_back _ _ _ V); eauto|apply (proj2 N2) in I; contradiction].
  - rewrite ops_snoc. apply pref_snoc; [apply (av_pref _ _ _ V)|apply (av_handlers _ _ _ V)].
  - rewrite ops_snoc. apply tame_snoc; [apply (av_tame _ _ _ V)|]. destruct op; try discriminate; exact Logic.I.
  - intros id. rewrite ops_snoc, requests_app, messages_app. cbn [fst]. replace (requests_on id [op]) with (@nil (Z * entity)) by (destruct op; try discriminate; reflexivity). replace (messages id [op]) with (@nil message) by (destruct op; try discriminate; reflexivity). rewrite !app_nil_r. apply (av_auth _ _ _ V).
  - intros id. destruct (av_talk _ _ _ V id) as (rest & Q & H). exists rest. rewrite sent_snoc_to, N1, app_nil_r. rewrite ops_snoc, conversation_snoc. cbn [fst]. split.
    + rewrite Q. destruct op; try discriminate; symmetry; apply app_nil_r.
    + rewrite is_shut_snoc. intros X. apply H. destruct (is_shut T id); auto.
Qed.
Lemma set_todo_eq f id l x : set_todo f id l x = if x =? id then l else f x. Proof. reflexivity. Qed.
Lemma step_deliver_app outs T a id now m : ainv outs T a -> ap_todo a id = [] -> In id (connects (ops_of T)) -> from_wire m ->
  exists sv evs, sv_step (ap_sv a) (ODeliver id now m) = Ok (sv, evs) /\
    ainv (outs ++ [ODeliver id now m]) (T ++ [(ODeliver id now m, evs)]) (App sv (set_todo (ap_todo a) id (flat_map (reaction key (ap_next a)) evs)) (ap_next a + 1)).
Proof.
  intros V TD CN W. destruct (core_step T (ap_sv a) (ODeliver id now m) (av_core _ _ _ V)) as (sv & evs & S & C & E); [split; auto; apply wire_received; auto|]. exists sv, evs. split; auto. cbn [effect] in E.
  destruct (delivery_says key (ap_next a) prior T id now m evs (av_handlers _ _ _ V) W E) as (D1 & D2 & D3 & D3b & D4 & rest' & D5 & D6). set (L := flat_map (reaction key (ap_next a)) evs) in *.
  assert (A0 : asked (ops_of (T ++ [(ODeliver id now m, evs)])) = asked (ops_of T)) by (rewrite ops_snoc, asked_snoc; apply app_nil_r).
  constructor; cbn [ap_sv ap_todo ap_next]; auto.
  - rewrite ops_snoc, !connects_snoc. cbn [fst]. rewrite (av_conn _ _ _ V). reflexivity.
  - intros i. rewrite ops_snoc, handler_snoc. apply (av_handlers _ _ _ V).
  - rewrite A0. intros t I. apply (av_past _ _ _ V) in I. lia.
  - intros i o I. rewrite set_todo_eq in I. rewrite ops_snoc, connects_snoc. cbn [fst]. rewrite app_nil_r. destruct (Z.eqb_spec i id) as [->|N].
    + exists (ap_next a). split; auto. rewrite Forall_forall in D2. auto.
    + apply (av_todo _ _ _ V); auto.
  - rewrite A0. intros i t I. rewrite set_todo_eq in I. destruct (Z.eqb_spec i id) as [->|N].
    + assert (t = ap_next a) by (rewrite D3 in I; destruct (is_auth m); cbn in I; intuition). subst t. split; [lia|]. intros J. apply (av_past _ _ _ V) in J. lia.
    + destruct (av_next _ _ _ V i t I). split; [lia|auto].
  - intros i. rewrite set_todo_eq. destruct (i =? id); [|apply (av_nodup _ _ _ V)]. rewrite D3. destruct (is_auth m); repeat constructor; auto.
  - assert (F : forall i t, In t (asked L) -> ~ In t (asked (ap_todo a i))).
    { intros i t I J. assert (t = ap_next a) by (rewrite D3 in I; destruct (is_auth m); cbn in I; intuition). subst t. apply (av_next _ _ _ V) in J. lia. }
    intros i j t I J. rewrite set_todo_eq in I, J. destruct (Z.eqb_spec i id) as [->|N], (Z.eqb_spec j id) as [->|M]; auto.
    + exfalso. eapply F; eauto.
    + exfalso. eapply F; eauto.
    + eapply (av_apart _ _ _ V); eauto.
  - intros i. rewrite set_todo_eq. destruct (i =? id); [exact D3b|apply (av_short _ _ _ V)].
  - intros i h x I. rewrite effects_snoc in I. apply in_app_iff in I. destruct I as [I|I]; [eapply (av_calm _ _ _ V); eauto|apply (proj1 D4) in I; tauto].
  - intros i t x I. rewrite effects_snoc in I. apply in_app_iff in I. destruct I as [I|I]; [eapply (av_back _ _ _ V); eauto|eapply (proj2 D4); eauto].
  - rewrite ops_snoc. apply pref_snoc; [apply (av_pref _ _ _ V)|apply (av_handlers _ _ _ V)].
  - rewrite ops_snoc. apply tame_snoc; [apply (av_tame _ _ _ V)|exact Logic.I].
  - intros i. pose proof (av_auth _ _ _ V i) as AU. rewrite ops_snoc, requests_app, messages_app, filter_app, !app_length, set_todo_eq. cbn [fst requests_on messages flat_map]. rewrite ?app_nil_r. fold (requests_on i (ops_of T)). rewrite (Z.eqb_sym id i). destruct (requests_own _ _ _ D2) as (RO & _). destruct (Z.eqb_spec i id) as [->|N].
    + rewrite TD in AU. cbn [requests_on flat_map length] in AU. rewrite RO, D3, <- AU. cbn [filter app]. destruct (is_auth m); cbn; lia.
    + cbn [filter length app]. lia.
  - intros i. destruct (av_talk _ _ _ V i) as (rest & Q & H). rewrite sent_snoc_to, bodies_app, is_shut_snoc, set_todo_eq, ops_snoc, conversation_snoc. cbn [fst]. rewrite (Z.eqb_sym id i). destruct (Z.eqb_spec i id) as [->|N].
    + rewrite <- D5, <- Q. destruct (is_shut T id) eqn:SH.
      * exists (rest ++ rest'). split; [|discriminate]. assert (X : sends_to id evs = []).
        { unfold delivery in E. destruct (has_body m); [destruct (part_of true m) as [[[mf sq] data]|]; [destruct (completes _ _)|]|].
          - destruct E as (c & e1 & e2 & _ & -> & SS & DD). rewrite sends_to_app, (dispatching_sends _ _ _ _ _ _ DD), app_nil_r. destruct (sending_says _ _ _ _ _ SS) as (_ & _ & S3 & _). apply S3. rewrite SH. reflexivity.
          - destruct (sending_says _ _ _ _ _ E) as (_ & _ & S3 & _). apply S3. rewrite SH. reflexivity.
          - eapply dispatching_sends; eauto.
          - destruct (sending_says _ _ _ _ _ E) as (_ & _ & S3 & _). apply S3. rewrite SH. reflexivity. }
        rewrite X. cbn [bodies flat_map app]. rewrite app_nil_r. rewrite app_assoc. reflexivity.
      * rewrite TD in H. rewrite (H eq_refl) in *. cbn [to_say flat_map]. rewrite app_nil_r. exists rest'. split; [rewrite app_assoc; reflexivity|]. exact D6.
    + destruct (D1 i N) as (-> & ->). cbn [bodies flat_map]. rewrite !app_nil_r, orb_false_r. exists rest. auto.
Qed.
Lemma step_go outs T a id op t : ainv outs T a -> ap_todo a id = op :: t ->
  exists sv evs, sv_step (ap_sv a) op = Ok (sv, evs) /\ ainv outs (T ++ [(op, evs)]) (App sv (set_todo (ap_todo a) id t) (ap_next a)).
Proof.
  intros V TD. destruct (av_todo _ _ _ V id op) as (tok & OW & CN); [rewrite TD; cbn; auto|].
  assert (KIND : (exists e, op = OSendTo id e) \/ (exists e, op = ORequest id tok e)).
  { destruct op; cbn in OW; try contradiction; [destruct OW; subst; eauto|destruct OW as (-> & -> & _); eauto]. }
  assert (TM : tame_op op) by (destruct op; cbn in OW |- *; tauto).
  assert (LG : legal_op (ops_of T) op).
  { destruct KIND as [(e & ->)|(e & ->)]; cbn [legal_op]; auto. apply (av_next _ _ _ V id). rewrite TD. cbn. auto. }
  destruct (core_step T (ap_sv a) op (av_core _ _ _ V) LG) as (sv & evs & S & C & E). exists sv, evs. split; auto.
  assert (EX : exists e, to_say [op] = [e] /\ sending true prior T id e evs).
  { assert (CT : connected T id = true) by (apply connected_in; auto). destruct KIND as [(e & ->)|(e & ->)]; cbn [effect] in E; rewrite CT in E; exists e; auto. }
  destruct EX as (e & TE & SE). destruct (sending_says _ _ _ _ _ SE) as (S1 & S2 & S3 & _ & S5).
  assert (CO : connects (ops_of T ++ [op]) = connects (ops_of T)) by (rewrite connects_snoc; destruct KIND as [(e' & ->)|(e' & ->)]; apply app_nil_r).
  assert (AO : asked (ops_of (T ++ [(op, evs)])) = asked (ops_of T) ++ asked [op]) by (rewrite ops_snoc; apply asked_app).
  assert (AT : asked (ap_todo a id) = asked [op] ++ asked t) by (rewrite TD; apply (asked_app [op] t)).
  constructor; cbn [ap_sv ap_todo ap_next]; auto.
  - rewrite ops_snoc. cbn [fst]. rewrite CO. apply (av_conn _ _ _ V).
  - intros i. rewrite ops_snoc, handler_snoc. destruct KIND as [(e' & ->)|(e' & ->)]; apply (av_handlers _ _ _ V).
  - rewrite AO. intros x I. apply in_app_iff in I. destruct I as [I|I]; [apply (av_past _ _ _ V); auto|]. apply (av_next _ _ _ V id). rewrite AT. apply in_app_iff. auto.
  - intros i o I. rewrite set_todo_eq in I. rewrite ops_snoc. cbn [fst]. rewrite CO. apply (av_todo _ _ _ V). destruct (Z.eqb_spec i id) as [->|N]; auto. rewrite TD. cbn. auto.
  - intros i x I. rewrite AO. rewrite set_todo_eq in I. destruct (Z.eqb_spec i id) as [->|N].
    + assert (J : In x (asked (ap_todo a id))) by (rewrite AT; apply in_app_iff; auto). destruct (av_next _ _ _ V id x J) as (Q1 & Q2). split; auto. rewrite in_app_iff. intros [K|K]; auto.
      pose proof (av_nodup _ _ _ V id) as ND. rewrite AT in ND. destruct KIND as [(e' & ->)|(e' & ->)]; cbn in K; [contradiction|]. destruct K as [<-|[]]. cbn in ND. inversion ND; auto.
    + destruct (av_next _ _ _ V i x I) as (Q1 & Q2). split; auto. rewrite in_app_iff. intros [K|K]; auto. apply N. apply (av_apart _ _ _ V i id x); auto. rewrite AT. apply in_app_iff. auto.
  - intros i. rewrite set_todo_eq. destruct (i =? id); [|apply (av_nodup _ _ _ V)]. pose proof (av_nodup _ _ _ V id) as ND. rewrite AT in ND. clear -ND. induction (asked [op]) as [|x l IH]; auto. inversion ND; auto.
  - assert (SUB : forall i x, In x (asked (set_todo (ap_todo a) id t i)) -> In x (asked (ap_todo a i))).
    { intros i x I. rewrite set_todo_eq in I. destruct (Z.eqb_spec i id) as [->|N]; auto. rewrite AT. apply in_app_iff. auto. }
    intros i j x I J. eapply (av_apart _ _ _ V); eauto.
  - intros i. rewrite set_todo_eq. destruct (i =? id); [|apply (av_short _ _ _ V)]. pose proof (av_short _ _ _ V id) as SH. rewrite TD in SH. cbn in SH. lia.
  - intros i h x I. rewrite effects_snoc in I. apply in_app_iff in I. destruct I as [I|I]; [eapply (av_calm _ _ _ V); eauto|apply (proj1 S5) in I; contradiction].
  - intros i h x I. rewrite effects_snoc in I. apply in_app_iff in I. destruct I as [I|I]; [eapply (av_back _ _ _ V); eauto|apply (proj2 S5) in I; contradiction].
  - rewrite ops_snoc. apply pref_snoc; [apply (av_pref _ _ _ V)|apply (av_handlers _ _ _ V)].
  - rewrite ops_snoc. apply tame_snoc; [apply (av_tame _ _ _ V)|exact TM].
  - intros i. pose proof (av_auth _ _ _ V i) as AU. rewrite ops_snoc, requests_app, messages_app, app_length, set_todo_eq. cbn [fst]. replace (messages i [op]) with (@nil message) by (destruct KIND as [(e' & ->)|(e' & ->)]; reflexivity). rewrite app_nil_r, <- AU. destruct (Z.eqb_spec i id) as [->|N].
    + rewrite TD. change (op :: t) with ([op] ++ t). rewrite requests_app, app_length. lia.
    + replace (requests_on i [op]) with (@nil (Z * entity)); [cbn; lia|]. destruct KIND as [(e' & ->)|(e' & ->)]; cbn; [reflexivity|]. destruct (Z.eqb_spec id i); [congruence|reflexivity].
  - intros i. destruct (av_talk _ _ _ V i) as (rest & Q & H). rewrite sent_snoc_to, bodies_app, is_shut_snoc, set_todo_eq, ops_snoc, conversation_snoc. cbn [fst].
    replace (match op with ODeliver i0 _ m => if i0 =? i then speech key (hi_up (history true prior (ops_of T))) m else [] | _ => [] end) with (@nil entity) by (destruct KIND as [(e' & ->)|(e' & ->)]; reflexivity).
    rewrite app_nil_r, <- Q. destruct (Z.eqb_spec i id) as [->|N].
    + destruct (is_shut T id || shuts id evs) eqn:SH.
      * rewrite S3 by reflexivity. cbn [bodies flat_map]. rewrite app_nil_r. exists rest. split; [reflexivity|discriminate].
      * rewrite S2 by reflexivity. apply orb_false_iff in SH. destruct SH as (SH & _). rewrite (H SH). rewrite TD. change (op :: t) with ([op] ++ t). replace (to_say ([op] ++ t)) with (to_say [op] ++ to_say t) by (unfold to_say; rewrite flat_map_app; reflexivity). rewrite TE. exists (to_say t). rewrite <- app_assoc. auto.
    + destruct (S1 i N) as (-> & ->). cbn [bodies flat_map]. rewrite !app_nil_r, orb_false_r. exists rest. auto.
Qed.
Lemma ainv_skip outs T a o : ainv outs T a -> connects [o] = [] -> ainv (outs ++ [o]) T a.
Proof. intros V N. destruct V. constructor; auto. rewrite connects_app, N, app_nil_r. auto. Qed.
Definition outer_ok (pre : list sv_op) (o : sv_op) : Prop :=
  match o with
  | OConnect id _ => ~ In id (connects pre)
  | ODeliver id _ m => In id (connects pre) /\ from_wire m
  | _ => True
  end.
Lemma app_step_inv outs T a o : ainv outs T a -> match o with ANet op => outer_ok outs op | AGo _ => True end ->
  exists a' T', app_step key a o = Ok (a', T') /\ ainv (outs ++ outside [o]) (T ++ T') a'.
Proof.
  intros V L. destruct o as [op|id].
  - cbn [outside flat_map app]. destruct (plain op) eqn:P.
    + destruct (step_plain outs T a op V P) as (sv & evs & S & V').
      { destruct op; try discriminate; cbn [legal_op]; auto. cbn in L. rewrite (av_conn _ _ _ V). exact L. }
      exists (App sv (ap_todo a) (ap_next a)), [(op, evs)]. split; auto. destruct op; try discriminate; cbn [app_step]; rewrite S; reflexivity.
    + destruct op; try discriminate.
      * cbn [app_step outer_ok] in *. destruct (ap_todo a id) as [|x t] eqn:TD.
        -- destruct L as (C & W). rewrite <- (av_conn _ _ _ V) in C. destruct (step_deliver_app outs T a id now m V TD C W) as (sv & evs & S & V'). rewrite S. cbn [bind]. do 2 eexists. split; [reflexivity|]. exact V'.
        -- exists a, []. rewrite app_nil_r. split; auto. apply ainv_skip; auto.
      * exists a, []. rewrite app_nil_r. split; auto. apply ainv_skip; auto.
      * exists a, []. rewrite app_nil_r. split; auto. apply ainv_skip; auto.
      * exists a, []. rewrite app_nil_r. split; auto. apply ainv_skip; auto.
      * exists a, []. rewrite app_nil_r. split; auto. apply ainv_skip; auto.
  - cbn [outside flat_map app app_step]. rewrite app_nil_r. destruct (ap_todo a id) as [|op t] eqn:TD.
    + exists a, []. rewrite app_nil_r. auto.
    + destruct (step_go outs T a id op t V TD) as (sv & evs & S & V'). rewrite S. cbn [bind]. do 2 eexists. split; [reflexivity|]. exact V'.
Qed.
Lemma outside_app a b : outside (a ++ b) = outside a ++ outside b. Proof. apply flat_map_app. Qed.
Lemma app_run_inv ops : forall outs T a, ainv outs T a -> (forall pre o post, outside ops = pre ++ o :: post -> outer_ok (outs ++ pre) o) ->
  exists a' T', app_run key a ops = Ok (a', T') /\ ainv (outs ++ outside ops) (T ++ T') a'.
Proof.
  induction ops as [|o ops IH]; intros outs T a V L; cbn [app_run].
  - exists a, []. cbn [outside flat_map]. rewrite !app_nil_r. auto.
  - change (o :: ops) with ([o] ++ ops) in *. rewrite outside_app in *. destruct (app_step_inv outs T a o V) as (a1 & T1 & -> & V1).
    { destruct o as [op|id]; auto. rewrite <- (app_nil_r outs). apply (L [] op (outside ops)). reflexivity. }
    cbn [bind]. destruct (IH (outs ++ outside [o]) (T ++ T1) a1 V1) as (a2 & T2 & -> & V2).
    { intros pre x post E. rewrite <- app_assoc. apply (L _ x post). rewrite E, <- app_assoc. reflexivity. }
    cbn [bind]. exists a2, (T1 ++ T2). split; auto. rewrite <- !app_assoc in V2. exact V2.
Qed.
Lemma app_start_inv : starts app_options prior sv0 -> exists sv1 tr1, app_start sv0 = Ok (sv1, tr1) /\ ainv [] tr1 (App sv1 (fun _ => []) 0) /\ ops_of tr1 = app_handlers.
Proof.
  intros S. assert (C0 : core [] sv0). { split; [apply start_inv; exact S|]. split; [intros pre o e post H; destruct pre; discriminate|]. split; [intros pre o post H; destruct pre; discriminate|reflexivity]. }
  destruct (core_run _ _ _ [] sv0 app_handlers C0) as (sv1 & tr1 & R & O & C).
  { cbn [app ops_of map]. intros pre o post H. assert (I : In o app_handlers) by (rewrite H; apply in_app_iff; cbn; auto). cbn in I. repeat (destruct I as [<-|I]; [exact Logic.I|]). contradiction. }
  exists sv1, tr1. split; [exact R|]. split; [|exact O]. cbn [app] in C. assert (EF : effects tr1 = []).
  { destruct C as (_ & X & _ & _). cut (forall ev, In ev (effects tr1) -> False); [destruct (effects tr1) as [|ev l]; auto; intros F; destruct (F ev); cbn; auto|].
    intros ev I. unfold effects in I. apply in_flat_map in I. destruct I as ([op evs] & I & J). assert (K : In op (ops_of tr1)) by (apply in_map with (f := fst) in I; exact I).
    apply in_split in I. destruct I as (p & q & I). specialize (X p op evs q I). rewrite O in K. cbn in K. repeat (destruct K as [<-|K]; [cbn in X; subst; contradiction|]). contradiction. }
  constructor; cbn [ap_sv ap_todo ap_next]; auto.
  - rewrite O. reflexivity.
  - intros i. rewrite O. reflexivity.
  - rewrite O. intros t [].
  - intros id o [].
  - intros id t [].
  - intros id. constructor.
  - intros i j t [].
  - rewrite EF. intros i h x [].
  - rewrite EF. intros i h x [].
  - rewrite O. intros x id t m b E. exfalso. assert (I : In (ODeliver id t m) app_handlers) by (rewrite E; apply in_app_iff; cbn; auto). cbn in I. intuition discriminate.
  - rewrite O. repeat constructor.
  - intros id. rewrite O. reflexivity.
  - intros id. exists []. rewrite O. rewrite sent_to_eq, EF. split; [reflexivity|auto].
Qed.
End Platform.
Lemma app_inv key prior ops a tr : app_history key prior ops a tr -> exists sv0, starts app_options prior sv0 /\ ainv key prior sv0 (outside ops) tr a.
Proof.
  intros (L & sv & sv1 & tr1 & tr2 & S & ST & R & ->). exists sv. split; auto. destruct (app_start_inv key prior sv S) as (sv1' & tr1' & ST' & V & _). rewrite ST in ST'. injection ST' as <- <-.
  destruct (app_run_inv key prior sv ops [] tr1 _ V) as (a' & T' & R' & V'); [exact L|]. rewrite R in R'. injection R' as <- <-. exact V'.
Qed.
Lemma app_total key prior ops sv : starts app_options prior sv -> app_legal ops -> exists a tr, app_history key prior ops a tr.
Proof.
  intros S L. destruct (app_start_inv key prior sv S) as (sv1 & tr1 & ST & V & _). destruct (app_run_inv key prior sv ops [] tr1 _ V) as (a & T & R & V'); [exact L|].
  exists a, (tr1 ++ T). split; auto. exists sv, sv1, tr1, T. auto.
Qed.
Lemma app_runs key prior ops a tr : app_history key prior ops a tr -> runs app_options prior (ops_of tr) tr.
Proof. intros H. destruct (app_inv _ _ _ _ _ H) as (sv & S & V). destruct (av_core _ _ _ _ _ _ V) as (_ & _ & L & R). exists sv, (ap_sv a). auto. Qed.
Lemma app_talks key prior ops a tr id : app_history key prior ops a tr ->
  exists rest, bodies (sent_to id tr) ++ rest = conversation key prior id (ops_of tr) /\ (is_shut tr id = false -> rest = to_say (ap_todo a id)).
Proof. intros H. destruct (app_inv _ _ _ _ _ H) as (sv & S & V). apply (av_talk _ _ _ _ _ _ V). Qed.
Lemma app_calm key prior ops a tr i h x : app_history key prior ops a tr -> In (SvHandle i h x) (effects tr) -> snd (handler key h x) = false.
Proof. intros H. destruct (app_inv _ _ _ _ _ H) as (sv & S & V). apply (av_calm _ _ _ _ _ _ V). Qed.

(** ** Handlers that have returned *)
Lemma app_run_app key a b : forall s s1 t1, app_run key s a = Ok (s1, t1) -> app_run key s (a ++ b) = bind (app_run key s1 b) (fun x => Ok (fst x, t1 ++ snd x)).
Proof.
  induction a as [|x a IH]; intros s s1 t1 E; cbn [app_run app] in *.
  - injection E as <- <-. destruct (app_run key s b) as [[]| |]; reflexivity.
  - destruct (app_step key s x) as [[s2 e]| |]; cbn [bind] in *; try discriminate. destruct (app_run key s2 a) as [[s3 t3]| |] eqn:E2; cbn [bind] in *; try discriminate.
    injection E as <- <-. rewrite (IH _ _ _ E2). destruct (app_run key s3 b) as [[s4 t4]| |]; cbn [bind fst snd]; rewrite ?app_assoc; reflexivity.
Qed.
Lemma go_all key id n : forall s s' t, app_run key s (repeat (AGo id) n) = Ok (s', t) -> (length (ap_todo s id) <= n)%nat -> ap_todo s' id = [].
Proof.
  induction n as [|n IH]; intros s s' t E L; cbn [repeat app_run app_step] in E.
  - injection E as <- <-. destruct (ap_todo s id); auto. cbn in L. lia.
  - destruct (ap_todo s id) as [|op l] eqn:TD.
    + cbn [bind] in E. destruct (app_run key s (repeat (AGo id) n)) as [[s2 e2]| |] eqn:E2; cbn [bind] in E; try discriminate. injection E as <- _. apply (IH s s2 e2 E2). rewrite TD. cbn. lia.
    + destruct (sv_step (ap_sv s) op) as [[sv evs]| |]; cbn [bind] in E; try discriminate. destruct (app_run key _ (repeat (AGo id) n)) as [[s2 e2]| |] eqn:E2; cbn [bind] in E; try discriminate. injection E as <- _.
      apply (IH _ _ _ E2). cbn [ap_todo]. rewrite set_todo_eq, Z.eqb_refl. cbn in L. lia.
Qed.
Lemma app_legal_pre a b : app_legal (a ++ b) -> app_legal a.
Proof. intros L pre o post E. apply (L pre o (post ++ outside b)). rewrite outside_app, E, <- app_assoc. reflexivity. Qed.
Lemma app_said key prior ops a tr id : app_history key prior (ops ++ [AGo id; AGo id]) a tr -> is_shut tr id = false -> bodies (sent_to id tr) = conversation key prior id (ops_of tr).
Proof.
  intros H SH. destruct (app_talks _ _ _ _ _ id H) as (rest & <- & Q). rewrite (Q SH). replace (ap_todo a id) with (@nil sv_op); [symmetry; apply app_nil_r|].
  destruct H as (L & sv & sv1 & tr1 & tr2 & S & ST & R & _). destruct (app_start_inv key prior sv S) as (sv1' & tr1' & ST' & V & _). rewrite ST in ST'. injection ST' as <- <-.
  destruct (app_run_inv key prior sv ops [] tr1 _ V (app_legal_pre _ _ L)) as (a' & T' & R' & V'). rewrite (app_run_app key ops _ _ _ _ R') in R.
  destruct (app_run key a' [AGo id; AGo id]) as [[a2 t2]| |] eqn:E; cbn [bind fst snd] in R; try discriminate. injection R as -> _. symmetry. apply (go_all key id 2 a' a t2 E). apply (av_short _ _ _ _ _ _ V').
Qed.
Lemma app_back key prior ops a tr i t x : app_history key prior ops a tr -> In (SvAnswer i t x) (effects tr) -> snd (on_params x) = negb (is_answer x).
Proof. intros H. destruct (app_inv _ _ _ _ _ H) as (sv & S & V). apply (av_back _ _ _ _ _ _ V). Qed.
Lemma app_pref key prior ops a tr : app_history key prior ops a tr -> pref (ops_of tr).
Proof. intros H. destruct (app_inv _ _ _ _ _ H) as (sv & S & V). apply (av_pref _ _ _ _ _ _ V). Qed.
Lemma app_tame key prior ops a tr : app_history key prior ops a tr -> Forall tame_op (ops_of tr).
Proof. intros H. destruct (app_inv _ _ _ _ _ H) as (sv & S & V). apply (av_tame _ _ _ _ _ _ V). Qed.
Lemma app_auth key prior ops a tr id : app_history key prior ops a tr -> (length (requests_on id (ops_of tr)) <= length (filter is_auth (messages id (ops_of tr))))%nat.
Proof. intros H. destruct (app_inv _ _ _ _ _ H) as (sv & S & V). rewrite <- (av_auth _ _ _ _ _ _ V id). lia. Qed.
