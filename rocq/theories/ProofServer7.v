(** The server: counterexamples; a process without privileges. *)
From Coq Require Import Sorted Permutation.
From Verif Require Import Base LibBase Bits LibBits Env EntTerm EntPlat Registry Message Timer Session Multipart Server.
From Verif Require Import SpecSession SpecMulti SpecTimer SpecServer ProofServer ProofServer2 ProofServer3 ProofServer4 ProofServer6 DemoServer.

(** Traffic without a handler does not keep a session alive. *)
Lemma timeout_despite_traffic : exists o ops tr a id u m es b now evs c, runs o [] ops tr /\ clock_ok o ops /\ tr = a ++ (ODeliver id u m, es) :: b ++ (OTick now, evs) :: c /\
  has_body m = true /\ part_of (opt_auto o) m = None /\ now < u + keepalive o /\ In (SvShut id) evs.
Proof.
  set (ops := [OConnect 1 0; OAddCb 1; ODeliver 1 50 (beat 138 1); OTick 61]). assert (L : legal ops) by (unfold ops; lawful).
  exists (opts false), ops, (trace_of false ops), (firstn 2 (trace_of false ops)), 1, 50, (beat 138 1), [], [], 61, [SvShut 1], [].
  split; [apply trace_runs; exact L|]. split.
  - unfold clock_ok, ordinary, ops. cbn. split; [repeat constructor; lia|]. split; [repeat constructor; lia|lia].
  - split; [vm_compute; reflexivity|]. split; [reflexivity|]. split; [reflexivity|]. split; [cbn; lia|cbn; auto].
Qed.
(** A complete upload whose last packet came early is never handed over. *)
Lemma never_delivered : exists o ops tr mf, runs o [] ops tr /\ opt_auto o = true /\ Permutation (numbers (packets mf ops)) (upto (mp_sum mf)) /\
  (forall i, handler_of (firstn 1 ops) i = handler_of ops i) /\ handler_of ops (mp_msgid mf) = Some 9 /\ calls_for mf (effects tr) = [].
Proof.
  exists (opts true), out_of_order, (trace_of true out_of_order), film. split; [apply trace_runs, out_of_order_ok|]. split; [reflexivity|]. split.
  - vm_compute. apply perm_trans with [2; 1; 3]; [apply perm_skip, perm_swap|apply perm_swap].
  - split; [intros i; reflexivity|]. split; [vm_compute; reflexivity|vm_compute; reflexivity].
Qed.
(** A repeated last packet hands the upload over again. *)
Lemma delivered_twice : exists o ops tr mf, runs o [] ops tr /\ opt_auto o = true /\ numbers (packets mf ops) = [2; 1; 3; 3] /\ mp_sum mf = 3 /\ length (calls_for mf (effects tr)) = 2%nat.
Proof.
  exists (opts true), repeated, (trace_of true repeated), film. split; [apply trace_runs, repeated_ok|]. split; [reflexivity|]. split; [vm_compute; reflexivity|]. split; [reflexivity|vm_compute; reflexivity].
Qed.
(** A session that closes before its close callback is registered is never forgotten. *)
Lemma never_forgotten : exists o sv ops sv' tr id, starts o [] sv /\ legal ops /\ sv_run sv ops = Ok (sv', tr) /\
  is_shut tr id = true /\ In (OAddCb id) ops /\ In (ORunClose id) ops /\ get_session sv' id = true /\ closings id (effects tr) = O /\
  forall more sv2 tr2, legal (ops ++ more) -> sv_run sv (ops ++ more) = Ok (sv2, tr2) -> get_session sv2 id = true /\ closings id (effects tr2) = O.
Proof.
  set (ops := [OConnect 1 0; OClose 1; OAddCb 1; ORunClose 1]). assert (L : legal ops) by (unfold ops; lawful).
  exists (opts false), (srv false), ops, (final false ops), (trace_of false ops), 1. split; [apply srv_starts|]. split; auto. split; [apply trace_run, L|].
  split; [vm_compute; reflexivity|]. split; [cbn; auto|]. split; [cbn; auto|]. split; [vm_compute; reflexivity|]. split; [vm_compute; reflexivity|].
  intros more sv2 tr2 L2 E. destruct (runs_full _ _ _ _ _ _ (srv_starts false) L2 E) as (_ & O & X).
  assert (P : exists b, tr2 = trace_of false ops ++ b).
  { clear - E. assert (G : forall a sv b sv2 tr2, sv_run sv (a ++ b) = Ok (sv2, tr2) -> exists s t c, sv_run sv a = Ok (s, t) /\ tr2 = t ++ c).
    { clear. induction a as [|x a IH]; intros sv b sv2 tr2 E; [exists sv, [], tr2; auto|]. cbn [app sv_run] in *. destruct (sv_step sv x) as [[s1 e1]| |]; try discriminate. cbn [bind] in *. destruct (sv_run s1 (a ++ b)) as [[s2 t2]| |] eqn:R; try discriminate. cbn in E. injection E as <- <-.
      destruct (IH _ _ _ _ R) as (s & t & c & -> & ->). exists s, ((x, e1) :: t), c. auto. }
    destruct (G _ _ _ _ _ E) as (s & t & c & R & ->). exists c. unfold trace_of. rewrite R. reflexivity. }
  destruct P as (b & ->). assert (NH : is_shut (trace_of false ops) 1 = true) by (vm_compute; reflexivity).
  assert (H0 : forall c, ~ hooked (trace_of false ops ++ c) 1).
  { intros c (x & e & y & Q & I & S). assert (W : forall z w, is_shut (z ++ w) 1 = is_shut z 1 || is_shut w 1) by (intros; unfold is_shut; rewrite effects_app, existsb_app; reflexivity).
    apply (f_equal (firstn 2)) in Q. destruct x as [|x1 [|x2 x]].
    - vm_compute in I. contradiction.
    - vm_compute in Q. discriminate.
    - assert (Q' : firstn 2 (trace_of false ops ++ c) = [(OConnect 1 0, [SvRefresh 1 0]); (OClose 1, [SvShut 1])]) by (vm_compute; reflexivity).
      rewrite Q' in Q. cbn [app firstn] in Q. injection Q as <- <-. vm_compute in S. discriminate. }
  assert (G : is_gone (trace_of false ops ++ b) 1 = false).
  { clear E O L2. induction b as [|[op es] b IH] using rev_ind; [rewrite app_nil_r; vm_compute; reflexivity|]. rewrite app_assoc in *. rewrite is_gone_snoc, IH by (eapply exact_prefix; eauto).
    pose proof (X _ op es [] eq_refl) as F. pose proof (effect_kinds _ _ _ _ _ _ F) as (_ & K & _). cbn [orb]. destruct (gones 1 es) eqn:GE; auto. unfold gones in GE. apply existsb_exists in GE. destruct GE as (ev & I & EQ). destruct ev; try discriminate.
    assert (id = 1) by lia. subst id. destruct (K _ I) as (-> & -> & _). cbn [effect] in F. destruct F as [(_ & F & _)|(F & _)]; [|discriminate]. apply H0 in F. contradiction. }
  split.
  - rewrite (registry _ _ _ _ _ _ 1 (srv_starts false) L2 E). unfold registered. rewrite G, andb_true_r. unfold connected. rewrite ops_app. unfold connects. rewrite flat_map_app, existsb_app. reflexivity.
  - rewrite (closed_once _ _ _ _ 1 X), G. reflexivity.
Qed.
(** A message handled after the close callback leaves an entry in the timer. *)
Lemma timer_leftover : exists o sv ops sv' tr id, starts o [] sv /\ legal ops /\ sv_run sv ops = Ok (sv', tr) /\ is_gone tr id = true /\ map_get (tm_map (sv_timer sv')) id <> None.
Proof.
  set (ops := [OAddHandler 2 5; OConnect 1 0; OAddCb 1; OClose 1; ORunClose 1; ODeliver 1 10 (beat 138 1)]). assert (L : legal ops) by (unfold ops; lawful).
  exists (opts false), (srv false), ops, (final false ops), (trace_of false ops), 1. split; [apply srv_starts|]. split; auto. split; [apply trace_run, L|]. split; [vm_compute; reflexivity|vm_compute; discriminate].
Qed.
(** An answer to a first message without a readable body goes to terminal 0. *)
Lemma wrong_terminal : exists o ops tr a id u m es c x, runs o [] ops tr /\ tr = a ++ (ODeliver id u m, es) :: c /\ In (SvSend id x) es /\ h_icc (m_hdr m) = 138 /\ h_icc (m_hdr x) = 0.
Proof.
  set (ops := [OConnect 1 0; ODeliver 1 1 (strange 138 1)]). assert (L : legal ops) by (unfold ops; lawful).
  exists (opts false), ops, (trace_of false ops), (firstn 1 (trace_of false ops)), 1, 1, (strange 138 1). do 3 eexists. split; [apply trace_runs, L|]. split; [vm_compute; reflexivity|]. split; [cbn; left; reflexivity|]. split; [reflexivity|reflexivity].
Qed.
Lemma short_key : exists f o sv bits, opt_key o = Some bits /\ bits <> 1024 /\ new_server f o = Ok sv.
Proof. exists empty_fs, (Options 0 false (Some 1017)). eexists. exists 1017. split; [reflexivity|]. split; [lia|reflexivity]. Qed.

(** ** Without the right to enter its directories *)
Definition keeps (sv sv' : server) : Prop := fs_priv (sv_fs sv') = fs_priv (sv_fs sv) /\ sv_auto sv' = sv_auto sv.
Lemma keeps_refl sv : keeps sv sv. Proof. split; reflexivity. Qed.
Lemma keeps_trans a b c : keeps a b -> keeps b c -> keeps a c. Proof. unfold keeps. intuition congruence. Qed.
Lemma send_keeps sv id o e sv1 o1 evs : sv_send sv id o e = (sv1, o1, evs) -> keeps sv sv1.
Proof. unfold sv_send, session_send. destruct (so_closed o); [|destruct (so_full o)]; intros H; injection H as <- <- <-; split; reflexivity. Qed.
Lemma dispatch_keeps sv id now m sv1 evs : dispatch sv id now m = Ok (sv1, evs) -> keeps sv sv1.
Proof. unfold dispatch. destruct (load_handler _ _); [destruct (timer_update _ _ _); try discriminate|]; intros H; injection H as <- <-; split; reflexivity. Qed.
Lemma md_keeps sv id now o m sv1 evs : message_and_dispatch sv id now o m = Ok (sv1, evs) -> keeps sv sv1.
Proof.
  unfold message_and_dispatch. destruct (session_message _ _) as [[s cb]| |]; try discriminate. cbn [bind]. destruct (dispatch _ _ _ _) as [[s1 e1]| |] eqn:D; try discriminate. cbn [bind]. intros H. injection H as <- <-. apply dispatch_keeps in D. exact D.
Qed.
Lemma write_keeps f mf sq d f1 : mp_write f mf sq d = Ok f1 -> fs_priv f1 = fs_priv f.
Proof. unfold mp_write. destruct (negb _); [discriminate|]. intros H. injection H as <-. reflexivity. Qed.
Lemma merge_keeps f mf c f1 : mp_merge f mf = Ok (c, f1) -> fs_priv f1 = fs_priv f.
Proof. unfold mp_merge. destruct (walk_parts f mf); try discriminate. cbn [bind]. destruct (alist_get _ _); try discriminate. cbn. intros H. injection H as _ <-. reflexivity. Qed.
Lemma deliver_keeps sv id now o m sv1 evs : deliver sv id now o m = Ok (sv1, evs) -> keeps sv sv1.
Proof.
  assert (S : forall e, (let '(s1, _, es) := sv_send sv id o e in Ok (s1, es)) = Ok (sv1, evs) -> keeps sv sv1).
  { intros e. destruct (sv_send sv id o e) as [[s1 o1] es] eqn:E. apply send_keeps in E. intros H. injection H as <- <-. exact E. }
  unfold deliver. destruct (m_body m) as [| |b]; try apply S. destruct (_ || _); [apply md_keeps|]. destruct b; try apply md_keeps. destruct (h_packet _) as [[sum sq]|]; [|discriminate]. destruct (a0801_packet _) as [r|]; [|discriminate]. destruct (rdr_fail r); [apply S|].
  destruct (mp_write _ _ _ _) as [f1| |] eqn:W; [|apply S|discriminate]. apply write_keeps in W. destruct (sv_send (set_fs sv f1) _ _ _) as [[s1 o1] es] eqn:E. apply send_keeps in E.
  assert (K : keeps sv s1) by (eapply keeps_trans; [|exact E]; split; [exact W|reflexivity]). destruct (negb _); [intros H; injection H as <- <-; exact K|]. destruct (is_full _ _) as [[]| |]; try discriminate; cbn [bind negb]; [|intros H; injection H as <- <-; exact K].
  destruct (mp_merge _ _) as [[c f2]| |] eqn:M; [|intros H; injection H as <- <-; exact K|discriminate]. apply merge_keeps in M. destruct (message_and_dispatch _ _ _ _ _) as [[s2 e2]| |] eqn:D; try discriminate. cbn [bind]. intros H. injection H as <- <-. apply md_keeps in D.
  eapply keeps_trans; [exact K|]. eapply keeps_trans; [|exact D]. destruct E as (E & _). cbn in E. split; [cbn; congruence|reflexivity].
Qed.
Lemma close_keeps sv id : keeps sv (fst (close_session sv id)).
Proof. unfold close_session. destruct (obj_get _ _); [destruct (so_closed _)|]; split; reflexivity. Qed.
Lemma step_keeps sv op sv1 evs : sv_step sv op = Ok (sv1, evs) -> keeps sv sv1.
Proof.
  destruct op; cbn [sv_step].
  - destruct (timer_update _ _ _); try discriminate. intros H. injection H as <- <-. split; reflexivity.
  - destruct (obj_get _ _) as [o|]; intros H; injection H as <- <-; [destruct (so_closed o)|]; split; reflexivity.
  - destruct (obj_get _ _) as [o|]; [apply deliver_keeps|]. intros H. injection H as <- <-. apply keeps_refl.
  - intros H. pose proof (close_keeps sv id) as K. destruct (close_session sv id). injection H as <- <-. exact K.
  - destruct (obj_get _ _) as [o|]; [|intros H; injection H as <- <-; apply keeps_refl]. destruct (_ && _); [|intros H; injection H as <- <-; apply keeps_refl]. unfold handle_close. destruct (timer_remove _ _); try discriminate. intros H. injection H as <- <-. split; reflexivity.
  - destruct (timer_check _ _) as [[t keys]| |]; try discriminate. cbn [bind]. assert (G : forall keys s, keeps s (fst (timeouts_loop s keys))).
    { clear. induction keys as [|k keys IH]; intros s; cbn [timeouts_loop]; [apply keeps_refl|]. unfold handle_read_timeout. pose proof (close_keeps s k) as C. destruct (get_session s k).
      - destruct (close_session s k) as [s1 e1]. specialize (IH s1). destruct (timeouts_loop s1 keys) as [s2 e2]. eapply keeps_trans; eauto.
      - specialize (IH s). destruct (timeouts_loop s keys) as [s2 e2]. exact IH. }
    intros H. specialize (G keys (set_timer sv t)). destruct (timeouts_loop _ _) as [s e]. injection H as <- <-. exact G.
  - assert (G : forall ids s, keeps s (fst (broadcast_loop s ids e))).
    { clear. induction ids as [|k ids IH]; intros s; cbn [broadcast_loop]; [apply keeps_refl|]. destruct (obj_get _ _) as [o|]; [|apply IH]. destruct (sv_send s k o e) as [[s1 o1] es] eqn:E. apply send_keeps in E. specialize (IH s1). destruct (broadcast_loop s1 ids e) as [s2 e2]. eapply keeps_trans; eauto. }
    specialize (G (sv_reg sv) sv). destruct (broadcast_loop _ _ _) as [s es]. intros H. injection H as <- <-. exact G.
  - destruct (obj_get _ _) as [o|]; [|intros H; injection H as <- <-; apply keeps_refl]. destruct (sv_send sv id o e) as [[s1 o1] es] eqn:E. apply send_keeps in E. intros H. injection H as <- <-. exact E.
  - destruct (obj_get _ _) as [o|]; [|intros H; injection H as <- <-; apply keeps_refl]. unfold sv_request. destruct (sv_send sv id o e) as [[s1 o1] es] eqn:E. apply send_keeps in E. intros H.
    destruct es as [|[] [|? ?]]; injection H as <- <-; exact E.
  - intros H. injection H as <- <-. split; reflexivity.
  - destruct (obj_get _ _) as [o|]; intros H; injection H as <- <-; split; reflexivity.
Qed.
Lemma refused_step sv id now m part sv1 evs : fs_priv (sv_fs sv) = false -> sv_auto sv = true -> received m -> part_of true m = Some part -> sv_step sv (ODeliver id now m) = Ok (sv1, evs) ->
  evs = [] \/ evs = [SvShut id] \/ exists h, evs = [SvSend id (Message h (BEnt (response m 1)))].
Proof.
  intros P A R PO. cbn [sv_step]. destruct (obj_get _ _) as [o|]; [|intros H; injection H as <- <-; auto]. unfold deliver. unfold part_of in PO. unfold received in R. destruct (h_packet (m_hdr m)) as [[sum sq]|]; [|discriminate].
  destruct (m_body m) as [| |e]; try discriminate. destruct e; try discriminate. destruct R as (_ & _ & _ & (_ & _ & T) & _ & _ & _ & data & PK). rewrite A, is_enable_packet_bit, T, PK. cbn [negb orb rdr_fail rdr_data].
  unfold mp_write. rewrite P. cbn [negb]. unfold sv_send, session_send. destruct (so_closed o); [|destruct (so_full o)]; intros H; injection H as <- <-; auto. right. right. eexists. reflexivity.
Qed.
Lemma refused f o sv ops sv' tr pre id now m part evs post : fs_priv f = false -> opt_auto o = true -> new_server f o = Ok sv -> sv_run sv ops = Ok (sv', tr) -> tr = pre ++ (ODeliver id now m, evs) :: post ->
  received m -> part_of true m = Some part -> evs = [] \/ evs = [SvShut id] \/ exists h, evs = [SvSend id (Message h (BEnt (response m 1)))].
Proof.
  intros P A N E T R PO. assert (K : fs_priv (sv_fs sv) = false /\ sv_auto sv = true).
  { unfold new_server in N. destruct (opt_key o); [destruct (negb _); [discriminate|]|]; injection N as <-; auto. }
  clear N. subst tr. revert ops sv K E. induction pre as [|[op es] pre IH]; intros ops sv K E; (destruct ops as [|o1 ops]; [discriminate|]); cbn [sv_run] in E; destruct (sv_step sv o1) as [[s1 e1]| |] eqn:S; try discriminate; cbn [bind] in E; destruct (sv_run s1 ops) as [[s2 t2]| |] eqn:RR; try discriminate; cbn [bind app] in E; injection E as E1 E2 E3 E4.
  - subst o1 e1. eapply refused_step; [apply K|apply K|exact R|exact PO|exact S].
  - apply step_keeps in S. destruct S as (S1 & S2). eapply (IH ops s1); [split; [rewrite S1|rewrite S2]; apply K|]. rewrite RR. congruence.
Qed.
